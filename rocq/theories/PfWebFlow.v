From Coq Require Import Lia ZArith.
From Verif Require Import Base BaseFacts Utf8 Utf8Facts Json JsonFacts JsonText JsonTextFacts Base64 Base64Facts Sha256 Serde Url UrlEncoded UrlEncodedFacts
  Object Formats Params Metadata Dcql Effects Jwt Request Response Session X509 SpecCert CertFacts Client Builder Server Jwe ExMatcher ExWallet ExVerifier.
From Verif Require Import MapFacts Spec SpecObject SpecRequest PfRequest PfResolve SpecResponse PfResponse SpecJwe PfJwe SpecBuilder SpecSession StoreFacts
  PfBuilder UuidFacts PfSession PfServer PfClient SpecExample PfExample SpecVerifierEx PfExServer PfExInitiate PfText PfMetadata PfInterop.
From Verif Require Import WebUrl SpecWebUrl PfWebUrl.

(* ------------------------------------------------------------ one more path segment *)
Definition word_char (c : ascii) : bool := in_range 97 122 c || in_range 48 57 c || Ascii.eqb c "-".
Lemma word_segment scheme s : str_all word_char s = true -> segment scheme s.
Proof.
  intros W. apply segment_iff. split; [split; [|split]|].
  - revert W. apply str_all_impl. apply sweep_impl. vm_compute. reflexivity.
  - revert W. now apply has_char_all.
  - intros I. unfold dots in I. repeat (destruct I as [<-|I]; [discriminate|]). contradiction.
  - intros _. revert W. now apply has_char_all.
Qed.
Lemma hex_words n : forall x, str_all word_char (hex_digits n x) = true.
Proof.
  induction n as [|n IH]; intros x; cbn [hex_digits]; [reflexivity|]. rewrite str_all_app, IH. cbn [andb str_all s1]. rewrite andb_true_r.
  assert (K : forallb (fun k => word_char (hexdig (N.of_nat k))) (seq 0 16) = true) by (vm_compute; reflexivity).
  rewrite forallb_forall in K. assert (B : (x mod 16 < 16)%N) by (apply N.mod_lt; lia).
  specialize (K (N.to_nat (x mod 16))). rewrite N2Nat.id in K. apply K. apply in_seq. lia.
Qed.
Lemma uuid_words u : str_all word_char (uuid_str u) = true.
Proof. unfold uuid_str. rewrite !str_all_app, !hex_words. reflexivity. Qed.

Lemma join_snoc l s : l <> [] -> join "/" (l ++ [s]) = join "/" l +:+ "/" +:+ s.
Proof.
  induction l as [|x l IH]; intros N; [congruence|]. destruct l as [|y l]; [reflexivity|].
  change (join "/" ((x :: y :: l) ++ [s])) with (x +:+ String "/" (join "/" ((y :: l) ++ [s]))). rewrite IH by discriminate.
  change (join "/" (x :: y :: l)) with (x +:+ String "/" (join "/" (y :: l))). now rewrite !sapp_assoc.
Qed.
Lemma path_snoc scheme l p s : path_of scheme l p -> segment scheme s -> path_of scheme (l ++ [s]) (p +:+ "/" +:+ s).
Proof.
  intros (N & S & ->) Hs. split; [destruct l; discriminate|]. split.
  - intros x I. apply in_app_iff in I as [I|[<-|[]]]; [now apply S|exact Hs].
  - rewrite join_snoc by exact N. now rewrite !sapp_assoc.
Qed.
Lemma path_one scheme s : segment scheme s -> path_of scheme [s] ("/" +:+ s).
Proof. intros Hs. split; [discriminate|]. split; [intros x [<-|[]]; exact Hs|reflexivity]. Qed.
Lemma path_root scheme l p : path_of scheme l p -> String.length p = 1 <-> l = [""].
Proof.
  intros (N & _ & ->). cbn [String.append String.length]. destruct l as [|s l]; [congruence|]. destruct l as [|s' l]; cbn [join].
  - split; [intros X; destruct s; [reflexivity|discriminate]|intros X; injection X as ->; reflexivity].
  - split; [|discriminate]. rewrite !slen_app. cbn [String.length]. lia.
Qed.
Lemma path_last scheme l dir last : path_of scheme l (dir +:+ "/" +:+ last) -> has_char "/" last = false ->
  exists l0, l = l0 ++ [last] /\ (l0 = [] /\ dir = "" \/ path_of scheme l0 dir).
Proof.
  intros (N & S & E) L. destruct (exists_last N) as (l0 & x & ->). exists l0.
  assert (Nx : has_char "/" x = false) by (apply (proj1 (segment_iff scheme x)); apply S, in_app_iff; right; now left).
  assert (U : forall a b : string, dir +:+ "/" +:+ last = a +:+ "/" +:+ b -> has_char "/" b = false -> a = dir /\ b = last).
  { intros a b X B. assert (Y := proj2 (rsplit_once_some "/" _ a b) (conj X B)). assert (Z := proj2 (rsplit_once_some "/" (dir +:+ "/" +:+ last) dir last) (conj eq_refl L)). rewrite Z in Y. injection Y as <- <-. now split. }
  destruct l0 as [|y l0].
  - cbn [app join] in E. destruct (U "" x E Nx) as [<- <-]. split; [reflexivity|now left].
  - rewrite join_snoc in E by discriminate. destruct (U ("/" +:+ join "/" (y :: l0)) x) as [<- <-]; [now rewrite sapp_assoc|exact Nx|]. split; [reflexivity|]. right.
    split; [discriminate|]. split; [|reflexivity]. intros z I. apply S. apply in_app_iff. now left.
Qed.

Section Normal.
Variables domain ipv6 : string -> option string.
Lemma extended_normal base s r : (forall scheme, segment scheme s) -> normal domain ipv6 base -> extended base s r -> normal domain ipv6 r.
Proof.
  intros Hs (Sn & Q & F & K) (Ob & Or & Es & Ea & Eq & Ef & Ep). unfold normal. rewrite Es, Ea, Eq, Ef, Or, Ep. split; [exact Sn|]. split; [exact Q|]. split; [exact F|].
  specialize (Hs (u_scheme base)).
  assert (P : forall l p, path_of (u_scheme base) l p -> exists l', path_of (u_scheme base) l' (p +:+ (if Nat.eqb (String.length p) 1 then "" else "/") +:+ s)
     /\ (l' = [s] \/ l <> [""] /\ l' = l ++ [s])).
  { intros l p Hp. assert (R := path_root _ _ _ Hp). destruct (Nat.eqb_spec (String.length p) 1) as [L|L].
    - apply R in L. subst l. destruct Hp as (_ & _ & ->). exists [s]. split; [now apply path_one|now left].
    - exists (l ++ [s]). split; [now apply path_snoc|]. right. split; [|reflexivity]. intros X. now apply R in X. }
  destruct K as [(a & Ha & A & _ & Sp & Pb)|[(Ha & Ns & _ & l & p & Hp & C)|(_ & _ & Hb & _)]]; [| |congruence].
  - left. exists a. split; [exact Ha|]. split; [exact A|]. split; [reflexivity|]. split.
    + intros S. split; [|now apply Sp]. intros X. destruct (Sp S) as [Y _]. destruct (u_path base); [congruence|discriminate].
    + right. destruct Pb as [->|[l Hl]]; [exists [s]; now apply path_one|]. destruct (P l _ Hl) as (l' & Hl' & _). now exists l'.
  - right. left. split; [exact Ha|]. split; [exact Ns|]. split; [reflexivity|]. destruct C as [[Nl ->]|[(x & y & ->) ->]].
    + destruct (P l p Hp) as (l' & Hl' & D). exists l'. eexists. split; [exact Hl'|]. left. split; [|reflexivity].
      intros x y. destruct D as [->|[N ->]]; [discriminate|]. destruct l as [|z [|z' l]]; [discriminate| |].
      * intros X. injection X as -> _ _. now elim N.
      * intros X. injection X as -> _ _. now elim (Nl z' l).
    + assert (L : Nat.eqb (String.length ("/." +:+ p)) 1 = false) by reflexivity. rewrite L.
      exists (("" :: x :: y) ++ [s]), (p +:+ "/" +:+ s). split; [now apply path_snoc|]. right. split; [now exists x, (y ++ [s])|]. now rewrite !sapp_assoc.
Qed.
Lemma sibling_normal base s r : (forall scheme, segment scheme s) -> normal domain ipv6 base -> sibling base s r -> normal domain ipv6 r.
Proof.
  intros Hs (Sn & Q & F & K) (Ob & Or & Es & Ea & Eq & Ef & dir & Ep & D). unfold normal. rewrite Es, Ea, Eq, Ef, Or, Ep. split; [exact Sn|].
  split; [discriminate|]. split; [discriminate|]. specialize (Hs (u_scheme base)).
  assert (P : forall l l0 dir, (l0 = [] /\ dir = "" \/ path_of (u_scheme base) l0 dir) -> l = l0 ++ [s] -> path_of (u_scheme base) l (dir +:+ "/" +:+ s)).
  { intros l l0 d [[-> ->]|X] ->; [now apply path_one|now apply path_snoc]. }
  destruct K as [(a & Ha & A & _ & Sp & Pb)|[(Ha & Ns & _ & l & p & Hp & C)|(_ & _ & Hb & _)]]; [| |congruence].
  - left. exists a. split; [exact Ha|]. split; [exact A|]. split; [reflexivity|]. split.
    + intros S. split; [destruct dir; discriminate|now apply Sp].
    + right. destruct D as [(last & Eb & L)|[N ->]]; [|exists [s]; now apply path_one].
      destruct Pb as [Z|[l Hl]]; [rewrite Z in Eb; destruct dir; discriminate|]. rewrite Eb in Hl. destruct (path_last _ _ _ _ Hl L) as (l0 & _ & X).
      exists (l0 ++ [s]). now apply (P _ l0).
  - right. left. split; [exact Ha|]. split; [exact Ns|]. split; [reflexivity|].
    destruct C as [[Nl Eb]|[(x & y & ->) Eb]].
    + destruct D as [(last & Eb' & L)|[N ->]].
      * rewrite <- Eb, Eb' in Hp. destruct (path_last _ _ _ _ Hp L) as (l0 & -> & X). exists (l0 ++ [s]), (dir +:+ "/" +:+ s).
        split; [now apply (P _ l0)|]. left. split; [|reflexivity]. intros x y. destruct l0 as [|z [|z' l0]]; [discriminate| |].
        -- intros Z. injection Z as -> _ _. now elim (Nl last []).
        -- intros Z. injection Z as -> _ _. now elim (Nl z' (l0 ++ [last])).
      * exfalso. rewrite Eb in N. destruct Hp as (_ & _ & ->). discriminate.
    + destruct D as [(last & Eb' & L)|[N ->]].
      * rewrite Eb in Eb'.
        assert (Y : exists d, dir = "/." +:+ d /\ p = d +:+ "/" +:+ last).
        { destruct Hp as (_ & _ & ->). cbn [String.append join] in Eb'. destruct dir as [|c1 [|c2 dir]]; cbn [String.append] in Eb'.
          - injection Eb' as E. exfalso. apply (f_equal (has_char "/")) in E. rewrite L in E. discriminate.
          - injection Eb' as _ E. discriminate.
          - injection Eb' as <- <- E. exists dir. split; [reflexivity|]. exact E. }
        destruct Y as (d & -> & ->). destruct (path_last _ _ _ _ Hp L) as (l0 & E0 & X). exists (l0 ++ [s]), (d +:+ "/" +:+ s).
        split; [now apply (P _ l0)|]. right. split; [|now rewrite !sapp_assoc]. destruct l0 as [|z [|z' l0]].
        -- discriminate.
        -- injection E0 as <- _ _. now exists s, [].
        -- injection E0 as <- _ _. now exists z', (l0 ++ [s]).
      * exfalso. rewrite Eb in N. discriminate.
Qed.
End Normal.

(** C112: the URLs of a session are read as they are written: a verifier whose base URL was read from a text gives
    every session a request URL and a response URL that are read as the same URL again, and that is plain text; the
    same for an endpoint of its own choice extended by the session. *)
Lemma c112_sessions_pf :
  forall domain ipv6 : string -> option string, hosts_ok domain ipv6 ->
    forall t public, web_parse domain ipv6 t = Some public ->
      (forall id r, extended public (uuid_str id) r ->
         web_parse domain ipv6 (url_str r) = Some r /\ utf8_valid (url_str r) = true)
      /\ (forall segment id r, In segment ["request"; "response"; "status"] -> at_session public segment id r ->
            web_parse domain ipv6 (url_str r) = Some r /\ utf8_valid (url_str r) = true).
Proof.
  intros domain ipv6 H t public E. apply (web_out domain ipv6 H) in E.
  assert (D : forall r, normal domain ipv6 r -> web_parse domain ipv6 (url_str r) = Some r /\ utf8_valid (url_str r) = true).
  { intros r N. apply (web_in domain ipv6 H) in N. split; [exact N|]. now apply (c112_reread_pf domain ipv6 H (url_str r)). }
  assert (Hu : forall id scheme, segment scheme (uuid_str id)) by (intros id scheme; apply word_segment, uuid_words).
  split.
  - intros id r X. apply D. exact (extended_normal domain ipv6 public _ r (Hu id) E X).
  - intros seg id r I (base & S & X). apply D. apply (extended_normal domain ipv6 base (uuid_str id) r (Hu id)); [|exact X].
    apply (sibling_normal domain ipv6 public seg base); [|exact E|exact S]. intros scheme. apply word_segment.
    destruct I as [<-|[<-|[<-|[]]]]; reflexivity.
Qed.
Notation web := (web_parse toy_domain toy_ipv6).
Example c112_sessions_ex :
  exists public r, web "HTTPS://V.example:443/a/../base/" = Some public /\ at_session public "request" 7%N r
    /\ url_str r = "https://v.example/base/request/00000000-0000-0000-0000-000000000007".
Proof.
  exists (mk_url "https" (Some "v.example") "/base/" false None None), (mk_url "https" (Some "v.example") "/base/request/00000000-0000-0000-0000-000000000007" false None None).
  split; [vm_compute; reflexivity|]. split; [|reflexivity].
  exists (mk_url "https" (Some "v.example") "/base/request" false None None). split.
  - split; [reflexivity|]. split; [reflexivity|]. split; [reflexivity|]. split; [reflexivity|]. split; [reflexivity|]. split; [reflexivity|].
    exists "/base". split; [reflexivity|]. left. exists "". split; reflexivity.
  - split; [reflexivity|]. split; [reflexivity|]. split; [reflexivity|]. split; [reflexivity|]. split; [reflexivity|]. split; [reflexivity|]. vm_compute. reflexivity.
Qed.

(** C112: wallet metadata whose endpoint is written in any way the URL standard allows: what is written back has the
    endpoint in the form in which it prints and every other parameter as it was, and is read as the same view. *)
Lemma c112_metadata_pf :
  forall domain ipv6 : string -> option string, hosts_ok domain ipv6 ->
    forall (o : obj) (w : wallet_metadata),
      jsorted (JObj o) = true -> wm_of_obj (web_parse domain ipv6) o = Ok w ->
      (forall k, k <> "authorization_endpoint" -> obj_get k (wm_to_obj (web_parse domain ipv6) w) = obj_get k o)
      /\ (exists s, obj_get "authorization_endpoint" o = Some (JStr s)
            /\ web_parse domain ipv6 s = Some (wm_endpoint w) /\ normal domain ipv6 (wm_endpoint w)
            /\ obj_get "authorization_endpoint" (wm_to_obj (web_parse domain ipv6) w) = Some (JStr (url_str (wm_endpoint w))))
      /\ wm_of_obj (web_parse domain ipv6) (wm_to_obj (web_parse domain ipv6) w)
         = Ok (mk_wm (wm_to_obj (web_parse domain ipv6) w) (wm_endpoint w) (wm_formats w)).
Proof.
  intros domain ipv6 H o w S E.
  destruct (c60_roundtrip_pf (web_parse domain ipv6) o w (fun s u X => proj1 (c112_reread_pf domain ipv6 H s u X)) S E) as (A & (s & B1 & B2 & B3) & C).
  split; [exact A|]. split; [|exact C]. exists s. split; [exact B1|]. split; [exact B2|]. split; [now apply (web_out domain ipv6 H s)|exact B3].
Qed.
Example c112_metadata_ex :
  exists w, wm_of_obj web sample_metadata = Ok w /\ jsorted (JObj sample_metadata) = true.
Proof.
  assert (X : is_ok (wm_of_obj web sample_metadata) = true) by (vm_compute; reflexivity).
  destruct (wm_of_obj web sample_metadata) as [w|]; [|discriminate]. exists w. split; [reflexivity|]. vm_compute. reflexivity.
Qed.

Lemma trim_left_no c s : has_char c s = false -> has_char c (trim_left s) = false.
Proof.
  induction s as [|d s IH]; [auto|]. cbn [trim_left]. destruct (control_or_space d); [|auto]. cbn [has_char]. intros X. apply orb_false_iff in X as [_ X]. auto.
Qed.
Lemma trim_right_no c s : has_char c s = false -> has_char c (trim_right s) = false.
Proof.
  induction s as [|d s IH]; [auto|]. cbn [has_char trim_right]. intros X. apply orb_false_iff in X as [X1 X2]. specialize (IH X2).
  destruct (trim_right s) as [|e t]; [destruct (control_or_space d); [reflexivity|]; cbn [has_char s1]; now rewrite X1|].
  change (has_char c (String d (String e t))) with (Ascii.eqb c d || has_char c (String e t)). now rewrite X1, IH.
Qed.
Lemma drop_tabs_no c s : has_char c s = false -> has_char c (drop_tabs s) = false.
Proof.
  induction s as [|d s IH]; [auto|]. cbn [has_char drop_tabs]. intros X. apply orb_false_iff in X as [X1 X2]. specialize (IH X2).
  destruct (tab_or_newline d); [exact IH|]. cbn [has_char]. now rewrite X1.
Qed.
Lemma web_bare domain ipv6 s u : has_char "?" s = false -> has_char "#" s = false -> web_parse domain ipv6 s = Some u -> u_query u = None /\ u_frag u = None.
Proof.
  intros A B. rewrite web_parse_body.
  assert (K : forall c, has_char c s = false -> has_char c (drop_tabs (trim_right (trim_left s))) = false) by (intros c X; now apply drop_tabs_no, trim_right_no, trim_left_no).
  apply K in A, B. clear K. destruct (split_once ":" _) as [[sch r]|] eqn:E; [|discriminate]. apply split_once_some in E as [E _]. rewrite E, has_char_app in A, B.
  apply orb_false_iff in A as [_ A], B as [_ B]. cbn [has_char] in A, B. apply orb_false_iff in A as [_ A], B as [_ B].
  destruct (negb _ || _); [discriminate|]. rewrite (split_opt_none "#" r B), (split_opt_none "?" r A). unfold body. cbn [option_map].
  destruct (mem_str _ _).
  - destruct (break_slash _) as [a p]. destruct (read_authority _ _ _ _ _); [|discriminate]. intros X. injection X as <-. now split.
  - destruct (strip_prefix "//" r).
    + destruct (break_slash _) as [a p]. destruct (read_authority _ _ _ _ _); [|discriminate]. intros X. injection X as <-. now split.
    + destruct (starts_with "/" r); intros X; injection X as <-; now split.
Qed.

(** C112: the two examples work together whatever URL the verifier is started at: as C79, for the URL reader of the
    standard, so that nothing is assumed of the URLs but that the HTTP client takes them. *)
Lemma c112_interop_pf
  : forall (key : Type) (domain ipv6 : string -> option string) (ssi_header : obj -> option bool) (uri_ok : string -> bool)
      (jwk_ok : obj -> bool) (jwe_encrypt : obj -> obj -> obj -> res string) (jwe_open : string -> res string)
      (lower sign : string -> string) (now : Z)
      (to_der : cert -> res string) (c : cert) (s : signer key) (alg : string) (k : obj) (public : url) (encrypted : bool) (a : adapter)
      (nonce : option string) (fresh id : uuid) (m m1 : store) (answer : obj) (query : string)
      (http : http_client) (endpoint : url) (credentials : list credential) (p : params),
    hosts_ok domain ipv6 ->
    (* the verifier, at a URL read from a text *)
    (exists t, web_parse domain ipv6 t = Some public) ->
    app_new (web_parse domain ipv6) to_der c s k public encrypted = Ok a -> (id < 2 ^ 128)%N ->
    sg_alg s = Ok alg -> utf8_valid alg = true ->
    (forall certs h, x5c_header alg certs = JObj h -> ssi_header h = Some true) ->
    (forall d, certified c d -> utf8_valid d = true) -> (forall n, nonce = Some n -> utf8_valid n = true) ->
    jwf (JObj k) = true -> jdepth (JObj k) <= 100 ->
    (encrypted = true ->
       text_at "crv" k "P-256"
       /\ forall pub, same_material k pub ->
            jwk_ok pub = true
            /\ forall header claims, exists jwe, jwe_encrypt header claims pub = Ok jwe /\ utf8_valid jwe = true
                 /\ jwe_open jwe = Ok (jprint (JObj claims))) ->
    (* it is asked to initiate a presentation *)
    serves (web_parse domain ipv6) jwe_open a (HInitiate nonce fresh id) m m1 (RJson 200 (JObj answer)) ->
    (* the network *)
    (forall segment r, In segment ["request"; "response"] -> at_session public segment id r -> uri_ok (url_str r) = true) ->
    (forall request response, at_session public "request" id request -> at_session public "response" id response ->
       relays (web_parse domain ipv6) jwe_open a id request response m1 http) ->
    (* the wallet, called with the parameters of the authorization URL *)
    web_parse domain ipv6 conformance_wallet = Some endpoint ->
    text_at "authorization_url" answer (url_str endpoint +:+ "?" +:+ query) -> param_pairs p = form_parse query ->
    clock_ok now -> (forall x, In x credentials -> utf8_valid (mc_raw x) = true) ->
    (exists x, In x credentials /\ is_pid x) ->
    let run := authorize (web_parse domain ipv6) ssi_header uri_ok jwk_ok jwe_encrypt lower sign now http endpoint credentials true p in
    exists response body m2 jwt m3 status info,
      at_session public "response" id response
      /\ posts (http_events (fst run)) = [wallet_post response body] /\ snd run = Ok None
      /\ serves (web_parse domain ipv6) jwe_open a (HRequest (uuid_str id)) m1 m2 (RJwt jwt)
      /\ serves (web_parse domain ipv6) jwe_open a (HResponse (uuid_str id) body) m2 m3 (RJson 200 (JObj []))
      /\ serves (web_parse domain ipv6) jwe_open a (HStatus (uuid_str id)) m3 m3 (RJson 200 status)
      /\ says_success status info
      /\ if encrypted
         then exists claims i x dns names,
                members_are info [("message", JStr "JARM response decrypted and verified"); ("decrypted_payload", JObj claims)]
                /\ claims_of claims [("pid", [i])] None /\ In x credentials /\ is_pid x /\ dns_names c (dns :: names)
                /\ presented sign now (match nonce with Some n => n | None => uuid_str fresh end) ("x509_san_dns:" +:+ dns) (mc_raw x) i
         else members_are info [("message", JStr "Verification successful"); ("credentials_received", JInt 1)].
Proof. change conformance_wallet with WALLET_AUTHORIZATION_ENDPOINT. change wallet_post with plain_post.
  intros key domain ipv6 ssi_header uri_ok jwk_ok jwe_encrypt jwe_open lower sign now to_der c s alg k public encrypted a nonce fresh id m m1 answer query
    http endpoint credentials p H (t & Et) A1 A2 A3 A4 A5 A6 A7 A8 A9 A10 A11 N R W U Q C V X.
  destruct (c112_sessions_pf domain ipv6 H t public Et) as [_ Hs].
  assert (W' : u_query endpoint = None /\ u_frag endpoint = None) by (apply (web_bare domain ipv6 WALLET_AUTHORIZATION_ENDPOINT); [reflexivity|reflexivity|exact W]).
  apply (c79_interop_pf key (web_parse domain ipv6) ssi_header uri_ok jwk_ok jwe_encrypt jwe_open lower sign now to_der c s alg k public encrypted a nonce fresh id m m1 answer query
    http endpoint credentials p A1 A2 A3 A4 A5 A6 A7 A8 A9 A10 A11).
  - intros seg r I S. destruct (Hs seg id r) as [P1 P2]; [destruct I as [<-|[<-|[]]]; cbn; auto|exact S|]. split; [exact P2|]. split; [exact P1|]. now apply (N seg).
  - exact R.
  - intros w E. change conformance_wallet with WALLET_AUTHORIZATION_ENDPOINT in E. rewrite W in E. injection E as <-. now apply (c112_reread_pf domain ipv6 H WALLET_AUTHORIZATION_ENDPOINT).
  - apply W'.
  - apply W'.
  - exact U.
  - exact Q.
  - exact C.
  - exact V.
  - exact X.
Qed.
Definition web_public : url := mk_url "https" (Some "v.example") "/" false None None.
Definition web_new (enc : bool) : res adapter :=
  app_new web (fun c => Ok (c_spki c)) (named ["v.example"] "K") (mk_signer (Ok "ES256") (Ok "k") (fun _ => "sig"))
    pair_key web_public enc.
Definition web_adapter (enc : bool) : adapter :=
  match web_new enc with Ok a => a | Err _ => mk_app (mk_verifier toy_client [] None (toy_url "https://x/")) toy_wm (toy_url "https://x/") end.
Definition web_serve (enc : bool) (h : hreq) (m : store) : store * res reply :=
  let '(m', _, r) := run false (app_validator pair_open) (handler web (web_adapter enc) h) m in (m', r).
Definition web_store (enc : bool) : store := fst (web_serve enc (HInitiate (Some "n") 1%N 7%N) []).
Definition web_http (enc : bool) : http_client := fun rq =>
  let (m2, r) := web_serve enc (HRequest (uuid_str 7%N)) (web_store enc) in
  if String.eqb (rq_method rq) "GET" then carried r else carried (snd (web_serve enc (HResponse (uuid_str 7%N) (rq_body rq)) m2)).
Definition web_run (enc : bool) : M wevent (option string) :=
  authorize web (fun _ => Some true) (fun _ => true) (fun _ => true) pair_encrypt (fun s => s) (fun _ => "S") 5 (web_http enc)
    pair_endpoint [pair_credential] true pair_params.

Example c112_interop_ex : forall enc : bool,
  exists response body, posts (http_events (fst (web_run enc))) = [wallet_post response body] /\ snd (web_run enc) = Ok None.
Proof. change wallet_post with plain_post.
  intros enc.
  assert (Pn : web_new enc = Ok (web_adapter enc)).
  { assert (O : is_ok (web_new enc) = true) by (destruct enc; vm_compute; reflexivity).
    unfold web_adapter. destruct (web_new enc); [reflexivity|discriminate O]. }
  assert (In0 : exists calls ans, run false (app_validator pair_open) (handler web (web_adapter enc) (HInitiate (Some "n") 1%N 7%N)) []
                              = (web_store enc, calls, Ok (RJson 200 (JObj ans)))
      /\ text_at "authorization_url" ans (url_str pair_endpoint +:+ "?" +:+ form_serialize (param_pairs pair_params))).
  { assert (X : snd (web_serve enc (HInitiate (Some "n") 1%N 7%N) []) = Ok (RJson 200 (JObj pair_answer))) by (destruct enc; vm_compute; reflexivity).
    unfold web_store. unfold web_serve in *.
    destruct (run false (app_validator pair_open) (handler web (web_adapter enc) (HInitiate (Some "n") 1%N 7%N)) []) as [[m' calls] r].
    cbn [fst snd] in *. subst r. exists calls, pair_answer. split; reflexivity. }
  destruct In0 as (calls & ans & I0 & U0).
  assert (Wp : exists t, web t = Some web_public) by (exists "https://V.example"; vm_compute; reflexivity).
  destruct (c112_interop_pf _ toy_domain toy_ipv6 (fun _ => Some true) (fun _ => true) (fun _ => true) pair_encrypt pair_open (fun s => s) (fun _ => "S") 5
     _ _ _ "ES256" _ web_public enc (web_adapter enc) (Some "n") 1%N 7%N [] (web_store enc) ans (form_serialize (param_pairs pair_params)) (web_http enc) pair_endpoint [pair_credential] pair_params toy_hosts Wp Pn)
    as (response & body & _ & _ & _ & _ & _ & _ & X & Y & _).
  - reflexivity.
  - reflexivity.
  - reflexivity.
  - reflexivity.
  - intros d D. apply certified_iff in D. destruct D as [<-|[]]. reflexivity.
  - intros n [= <-]. reflexivity.
  - reflexivity.
  - apply Nat.leb_le. vm_compute. reflexivity.
  - intros _. split; [reflexivity|]. intros pub _. split; [reflexivity|]. intros h cl. eexists. split; [reflexivity|]. split; [apply b64_utf8|].
    unfold pair_open. now rewrite b64url_rt.
  - exists calls. exact I0.
  - reflexivity.
  - intros rq rs _ _. unfold relays, serves.
    destruct (run false (app_validator pair_open) (handler web (web_adapter enc) (HRequest (uuid_str 7%N))) (web_store enc)) as [[m2 cs] r2] eqn:E2.
    assert (R2 : exists r, r2 = Ok r).
    { cbn [handler] in E2. unfold get_request_object in E2. rewrite uuid_back, run_pfinish in E2 by reflexivity.
      destruct (run false (app_validator pair_open) (retrieve_code 7%N) (web_store enc)) as [[? ?] ?]. injection E2 as _ _ <-. eauto. }
    destruct R2 as (r & ->). exists m2, r. split; [eauto|]. unfold web_http, web_serve. rewrite E2.
    assert (C : forall x r, x = carried (Ok r) -> carries x r) by (intros x y ->; destruct y; cbn; eauto).
    split.
    + intros rq0 -> _. apply C. reflexivity.
    + intros rq0 m3 r3 -> _ (cs3 & E3). rewrite E3. apply C. reflexivity.
  - vm_compute. reflexivity.
  - exact U0.
  - vm_compute. reflexivity.
  - reflexivity.
  - intros x [<-|[]]. reflexivity.
  - exists pair_credential. split; [now left|]. split; reflexivity.
  - exists response, body. split; [exact X|exact Y].
Qed.
