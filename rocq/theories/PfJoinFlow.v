From Coq Require Import Lia ZArith.
From Verif Require Import Base BaseFacts Utf8 Utf8Facts Json JsonText JsonTextFacts Base64Facts UrlEncoded UrlEncodedFacts Url Object Params Metadata Effects Request Verify Response Wallet
  SpecRequest SpecResponse PfRequest PfResponse SpecWallet PfResolve PfWallet SpecEncodings PfEncodings Reqwest SpecReqwest PfReqwest.
From Verif Require Import WebUrl SpecWebUrl PfWebUrl PfWebReads WebJoin SpecHttpUri SpecWebJoin PfWebJoin HttpUri PfHttpUri.

Lemma http_special u : http_url u -> special (u_scheme u).
Proof. intros [-> | ->]; [now left|right; now left]. Qed.

Section Join.
Variables domain ipv6 : string -> option string.
Hypothesis H : hosts_ok domain ipv6.
Lemma normal_special u : normal domain ipv6 u -> special (u_scheme u) ->
  exists a l, u_auth u = Some a /\ authority domain ipv6 (u_scheme u) a /\ a <> "" /\ u_opaque u = false /\ path_of (u_scheme u) l (u_path u).
Proof.
  intros (_ & _ & _ & K) S. destruct K as [(a & Ha & A & O & Sp & P)|[(_ & X & _)|(_ & X & _)]]; [|contradiction|contradiction].
  destruct (Sp S) as [Np Na]. destruct P as [P|[l P]]; [contradiction|]. now exists a, l.
Qed.
Lemma join_normal base s u : normal domain ipv6 base -> web_join domain ipv6 base s = Some u -> normal domain ipv6 u.
Proof.
  intros Nb E. unfold web_join in E. destruct (mem_str (u_scheme base) special_schemes) eqn:M; [|discriminate]. assert (S := proj1 (special_iff _) M).
  destruct (normal_special base Nb S) as (a & l & Ha & A & Na & O & P).
  assert (R : forall r, relative domain ipv6 base r = Some u -> normal domain ipv6 u).
  { intros r. unfold relative. destruct (two_slashes r); [apply (web_out domain ipv6 H)|].
    destruct (split_opt "#" r) as [r1 f]. destruct (split_opt "?" r1) as [r2 q]. intros X. injection X as <-. destruct Nb as (Sn & Q & F & _).
    unfold normal. cbn [u_scheme u_auth u_path u_opaque u_query u_frag]. split; [exact Sn|]. split; [|split].
    - intros q'. destruct q as [q|]; [|destruct (String.eqb (unbackslash r2) ""); [apply Q|discriminate]]. intros X. injection X as <-. rewrite <- M. apply query_pct.
    - intros f'. destruct f as [f|]; [|discriminate]. cbn [option_map]. intros X. injection X as <-. apply clean_iff. apply pct_cl; [exact frag_set|apply hexes_ok; vm_compute; reflexivity].
    - left. exists a. split; [exact Ha|]. split; [exact A|]. split; [reflexivity|].
      assert (W : forall dir b, (forall x, In x dir -> plain_segment x /\ has_char "\" x = false) -> has_char "\" b = false ->
                  path_of (u_scheme base) (walk dir (split_all "/" b)) (path_text (walk dir (split_all "/" b)))).
      { intros dir b D B. destruct (walk_out (split_all "/" b) dir (split_all_nonempty "/" b) (split_all_no "/" b)) as [W1 W2]; [intros x I; now apply D|].
        split; [exact W1|]. split; [|reflexivity]. intros x I. apply segment_iff. split; [now apply W2|]. intros _. revert x I. apply walk_no; [reflexivity|now apply split_all_has|intros x I; now apply D]. }
      assert (Pn : exists l', path_of (u_scheme base) l'
         (if String.eqb (unbackslash r2) "" then u_path base else if starts_with "/" (unbackslash r2) then path_text (segments (unbackslash r2))
          else path_text (walk (tl (rev (path_segments (u_path base)))) (split_all "/" (unbackslash r2))))).
      { destruct (String.eqb (unbackslash r2) ""); [now exists l|]. assert (B := unbackslash_no r2). destruct (starts_with "/" (unbackslash r2)) eqn:St.
        - unfold segments. eexists. apply W; [contradiction|]. destruct (unbackslash r2) as [|c x]; [reflexivity|]. cbn [has_char] in B. now apply orb_false_iff in B.
        - eexists. apply W; [|exact B]. intros x I. destruct P as (P1 & P2 & P3). unfold path_segments in I. rewrite P3 in I.
          change ("/" +:+ join "/" l) with (String "/" (join "/" l)) in I. cbv iota in I.
          rewrite split_join_slash in I; [|exact P1|intros y J; apply (segment_iff (u_scheme base)), P2, J].
          assert (J : In x l) by (apply in_rev; destruct (rev l); [contradiction|now right]). apply P2, segment_iff in J. split; [apply J|now apply J]. }
      destruct Pn as [l' Pn]. split; [|right; now exists l']. intros _. split; [|exact Na]. destruct Pn as (_ & _ & ->). discriminate. }
  destruct (split_once ":" _) as [[sch r]|]; [|now apply R in E]. destruct (scheme_ok sch); [|now apply R in E].
  destruct (String.eqb (lowered sch) (u_scheme base) && negb (two_slashes r)); [now apply R in E|]. now apply (web_out domain ipv6 H) in E.
Qed.
Definition place_named (s : string) : bool :=
  let t := drop_tabs (trim_right (trim_left s)) in
  two_slashes t || match split_once ":" t with Some (sch, _) => scheme_ok sch | None => false end.
Lemma named_iff s : names_place s <-> place_named s = true.
Proof.
  unfold place_named. set (t := drop_tabs (trim_right (trim_left s))). rewrite orb_true_iff. split.
  - intros (t' & T & K). apply stripped_iff in T. fold t in T. subst t'. destruct K as [K|(s' & r & K)]; [left; now apply slashed_iff|right].
    apply with_scheme_iff in K as (sch & E & O & _). now rewrite E.
  - intros K. exists t. split; [now apply stripped_iff|]. destruct K as [K|K]; [left; now apply slashed_iff|right].
    destruct (split_once ":" t) as [[sch r]|] eqn:E; [|discriminate]. exists (lowered sch), r. apply with_scheme_iff. now exists sch.
Qed.
Lemma join_place base s u : web_join domain ipv6 base s = Some u -> names_place s \/ same_place base u.
Proof.
  intros E. destruct (place_named s) eqn:P; [left; now apply named_iff|right]. unfold place_named in P. apply orb_false_iff in P as [P1 P2]. unfold web_join in E.
  destruct (mem_str (u_scheme base) special_schemes); [|discriminate].
  assert (R : relative domain ipv6 base (drop_tabs (trim_right (trim_left s))) = Some u -> same_place base u).
  { unfold relative. rewrite P1. destruct (split_opt "#" _) as [r1 f]. destruct (split_opt "?" r1) as [r2 q]. intros X. injection X as <-. now split. }
  destruct (split_once ":" _) as [[sch r]|]; [|now apply R]. rewrite P2 in E. now apply R.
Qed.
End Join.

(** C114: a reference found at a web URL that was read from a text means a URL in normal form, which is read again as it
    is written; and unless it names a scheme or starts with two slashes it stays with the scheme, the user, the host and
    the port of the URL it was found at. *)
Lemma c114_stays_pf :
  forall domain ipv6 : string -> option string, hosts_ok domain ipv6 ->
    forall t base s u, web_parse domain ipv6 t = Some base -> web_join domain ipv6 base s = Some u ->
      normal domain ipv6 u /\ web_parse domain ipv6 (url_str u) = Some u
      /\ (~ names_place s -> same_place base u).
Proof.
  intros domain ipv6 H t base s u B E. apply (web_out domain ipv6 H) in B. assert (N := join_normal domain ipv6 H base s u B E).
  split; [exact N|]. split; [now apply (web_in domain ipv6 H)|]. intros P. destruct (join_place domain ipv6 base s u E) as [X|X]; [contradiction|exact X].
Qed.
Example c114_stays_ex :
  exists base u, web_parse toy_domain toy_ipv6 "https://v.example/a" = Some base
    /\ web_join toy_domain toy_ipv6 base " b/../x y" = Some u /\ url_str u = "https://v.example/x%20y" /\ ~ names_place " b/../x y"
    /\ names_place "b:c" /\ names_place "\/o.example".
Proof.
  exists (mk_url "https" (Some "v.example") "/a" false None None), (mk_url "https" (Some "v.example") "/x%20y" false None None).
  split; [vm_compute; reflexivity|]. split; [vm_compute; reflexivity|]. split; [reflexivity|]. split.
  - intros X. apply named_iff in X. vm_compute in X. discriminate.
  - split; apply named_iff; vm_compute; reflexivity.
Qed.

Definition bare_url (u : url) : url := mk_url (u_scheme u) (u_auth u) (u_path u) (u_opaque u) (u_query u) None.
Lemma normal_bare domain ipv6 u : normal domain ipv6 u -> http_url u -> normal domain ipv6 (bare_url u).
Proof.
  intros (Sn & Q & F & K) W. assert (S := http_special u W). unfold normal, bare_url. cbn [u_scheme u_auth u_path u_opaque u_query u_frag]. split; [exact Sn|]. split; [exact Q|]. split; [discriminate|].
  destruct K as [K|[(_ & X & _)|(_ & X & _)]]; [now left|contradiction|contradiction].
Qed.

Lemma chain_place domain ipv6 net u q l w z : hosts_ok domain ipv6 -> chain (web_join domain ipv6) web_uri net u q l w z ->
  normal domain ipv6 u -> http_url u -> rq_uri q = sent_to u -> forall before q' after, l = before ++ q' :: after ->
  exists v, rq_uri q' = sent_to v /\ normal domain ipv6 v /\ http_url v /\ (same_place u v \/ sent_away net before).
Proof.
  intros H C. induction C as [u q|u q x v q0 l w z X S Hv R C IH]; intros N W E before q' after L.
  - destruct before as [|b before]; [|destruct before; discriminate]. injection L as -> _. exists u. split; [exact E|]. split; [exact N|]. split; [exact W|]. left. now split.
  - destruct before as [|b before].
    + injection L as -> _. exists u. split; [exact E|]. split; [exact N|]. split; [exact W|]. left. now split.
    + injection L as <- L. destruct S as (St & loc & Lx & J & Uk). assert (Nv := join_normal domain ipv6 H u loc v N J). destruct R as (R & _).
      destruct (IH Nv Hv R before q' after L) as (v' & E' & N' & W' & P'). exists v'. split; [exact E'|]. split; [exact N'|]. split; [exact W'|].
      destruct P' as [P'|(p & x' & l' & I & P')]; [|right; exists p, x', l'; split; [now right|exact P']].
      destruct (join_place domain ipv6 u loc v J) as [A|A].
      * right. exists q, x, loc. split; [now left|]. split; [exact X|]. split; [exact St|]. now split.
      * left. destruct A as [A1 A2], P' as [B1 B2]. split; congruence.
Qed.
Lemma execute_place domain ipv6 net limit r u : hosts_ok domain ipv6 -> web_parse domain ipv6 (rq_uri r) = Some u ->
  forall before q after, fst (execute (web_parse domain ipv6) (web_join domain ipv6) web_uri net limit r) = before ++ q :: after ->
  exists v, web_parse domain ipv6 (rq_uri q) = Some v /\ http_url v /\ (same_place u v \/ sent_away net before).
Proof.
  intros H E before q after L. destruct (c111_execute_pf (web_parse domain ipv6) (web_join domain ipv6) web_uri net limit r) as [A B].
  assert (W : http_url u).
  { destruct (String.eqb_spec (u_scheme u) "http") as [X|N1]; [now left|]. destruct (String.eqb_spec (u_scheme u) "https") as [X|N2]; [now right|].
    destruct A as [A _]; [intros u' E'; rewrite E in E'; injection E' as <-; intros [X|X]; contradiction|]. rewrite A in L. destruct before; discriminate. }
  destruct (B u E W) as (w & z & C & _). assert (N := web_out domain ipv6 H _ _ E).
  destruct (chain_place domain ipv6 net u _ _ w z H C N W eq_refl before q after L) as (v & Eq & Nv & Wv & P). exists (bare_url v).
  split; [rewrite Eq; apply (web_in domain ipv6 H); now apply normal_bare|]. split; [exact Wv|]. exact P.
Qed.

(** C114: the library's own client, given a URL read by the standard: every request it sends goes to an http(s) URL, and that
    is at the server the first went to unless some server before it answered with a redirect whose Location names a scheme
    or starts with two slashes. *)
Lemma c114_client_pf :
  forall domain ipv6 : string -> option string, hosts_ok domain ipv6 ->
    forall (net : http_req -> res exchange) (limit : nat) (r : http_req) (u : url), web_parse domain ipv6 (rq_uri r) = Some u ->
      forall before q after, fst (execute (web_parse domain ipv6) (web_join domain ipv6) web_uri net limit r) = before ++ q :: after ->
        exists v, web_parse domain ipv6 (rq_uri q) = Some v /\ http_url v
          /\ (same_place u v \/ sent_away net before).
Proof. intros domain ipv6 H net limit r u E. exact (execute_place domain ipv6 net limit r u H E). Qed.
Example c114_client_ex :
  map (fun q => rq_uri q) (fst (execute (web_parse toy_domain toy_ipv6) (web_join toy_domain toy_ipv6) web_uri (toy_net 302 "../done?x#y") 10 toy_post)) = ["https://v.example/resp"; "https://v.example/done?x"]
  /\ map (fun q => rq_uri q) (fst (execute (web_parse toy_domain toy_ipv6) (web_join toy_domain toy_ipv6) web_uri (toy_net 302 "//o.example") 10 toy_post)) = ["https://v.example/resp"; "https://o.example/"].
Proof. split; vm_compute; reflexivity. Qed.

(** C114: a wallet with the library's own client submits its response at the server the response_uri names, and sends anything
    elsewhere only after a server it was sent to answered with a redirect whose Location names a scheme or starts with two slashes. *)
Lemma c114_submit_pf :
  forall domain ipv6 : string -> option string, hosts_ok domain ipv6 ->
    forall (net : http_req -> res exchange) (limit : nat) (o : obj) (a : aro) (resp : auth_response),
      aro_of_obj (web_parse domain ipv6) o = Ok a ->
      let client := reqwest_client (web_parse domain ipv6) (web_join domain ipv6) web_uri net limit in
      let sent := wire (web_parse domain ipv6) (web_join domain ipv6) web_uri net limit
                    (fst (submit_response (web_parse domain ipv6) web_uri client a resp)) in
      forall before q after, sent = before ++ q :: after ->
        exists s u v, text_at "response_uri" o s /\ web_parse domain ipv6 s = Some u
          /\ web_parse domain ipv6 (rq_uri q) = Some v /\ http_url v /\ (same_place u v \/ sent_away net before).
Proof.
  intros domain ipv6 H net limit o a resp A. cbv zeta.
  set (up := web_parse domain ipv6) in *. set (join := web_join domain ipv6). set (http := reqwest_client up join web_uri net limit).
  destruct (c45_traffic_pf up web_uri http a resp) as [T1 T2].
  assert (D : fst (submit_response up web_uri http a resp) = [] \/
     exists body, fst (submit_response up web_uri http a resp) = [EHttp (form_post (url_str (ro_return a)) body)]).
  { assert (K : kind_matches (ro_mode a) resp \/ ~ kind_matches (ro_mode a) resp) by (destruct (ro_mode a), resp; cbn; tauto).
    destruct K as [K|K]; [|left; auto]. destruct (web_uri (url_str (ro_return a))) eqn:E; [|left; auto]. right. destruct (T1 K eq_refl) as (body & B & _). now exists body. }
  destruct D as [D|(body & D)].
  { rewrite D. cbn [wire flat_map]. intros [|? ?]; discriminate. }
  pose proof (c45_response_uri_pf up web_uri http o a resp (EHttp (form_post (url_str (ro_return a)) body)) A) as R.
  rewrite D in R |- *. specialize (R (or_introl eq_refl)). destruct R as (s & u & b & R1 & R2 & R3).
  rewrite wire_http. change (http_events [EHttp (form_post (url_str (ro_return a)) body)]) with [form_post (url_str (ro_return a)) body].
  cbn [flat_map]. rewrite app_nil_r. intros before q after E. injection R3 as R3 _.
  assert (U : up (rq_uri (form_post (url_str (ro_return a)) body)) = Some u).
  { change (rq_uri (form_post (url_str (ro_return a)) body)) with (url_str (ro_return a)). rewrite R3. unfold up. now apply (c112_reread_pf domain ipv6 H s u). }
  destruct (execute_place domain ipv6 net limit _ u H U before q after E) as (v & V1 & V2 & V3). exists s, u, v. auto.
Qed.
Definition away_aro : option aro := match aro_of_obj (web_parse toy_domain toy_ipv6) (obj_insert "response_mode" (JStr "direct_post") sample_request) with Ok a => Some a | Err _ => None end.
Definition away_posts (a : aro) : list (string * string) :=
  map (fun q => (rq_method q, rq_uri q)) (wire (web_parse toy_domain toy_ipv6) (web_join toy_domain toy_ipv6) web_uri (toy_net 307 "again") 10
    (fst (submit_response (web_parse toy_domain toy_ipv6) web_uri (reqwest_client (web_parse toy_domain toy_ipv6) (web_join toy_domain toy_ipv6) web_uri (toy_net 307 "again") 10)
            a (Unencoded (mk_unencoded toy_token None))))).
Example c114_submit_ex : option_map away_posts away_aro = Some [("POST", "https://v.example/resp"); ("POST", "https://v.example/again")].
Proof. vm_compute. reflexivity. Qed.

(** C114: validating a request by reference with the library's own client asks the server the request_uri names, and others only
    after a redirect that names a scheme or starts with two slashes. *)
Lemma c114_validate_pf :
  forall domain ipv6 : string -> option string, hosts_ok domain ipv6 ->
    forall (ssi_header : obj -> option bool) (net : http_req -> res exchange) (limit : nat) (w : wallet) (r : auth_request) t u,
      ar_indirection r = ByReference u -> web_parse domain ipv6 t = Some u ->
      let sent := wire (web_parse domain ipv6) (web_join domain ipv6) web_uri net limit
                    (fst (validate (web_parse domain ipv6) ssi_header web_uri w r)) in
      forall before q after, sent = before ++ q :: after ->
        exists v, web_parse domain ipv6 (rq_uri q) = Some v /\ http_url v /\ (same_place u v \/ sent_away net before).
Proof.
  intros domain ipv6 H ssi net limit w r t u I U. cbv zeta. rewrite wire_http. destruct (c13_traffic_pf (web_parse domain ipv6) ssi web_uri w r) as [T _]. cbv zeta in T. rewrite T, I.
  destruct (web_uri (url_str u)); cbn [flat_map]; [|intros [|? ?]; discriminate]. rewrite app_nil_r. apply execute_place; [exact H|].
  change (rq_uri (mk_req "GET" (url_str u) [("Prefer", "OID4VP-1.0.0")] "")) with (url_str u). now apply (c112_reread_pf domain ipv6 H t u).
Qed.
Definition other_net : http_req -> res exchange :=
  fun q => Ok (if String.eqb (rq_uri q) "https://v.example/req" then mk_exchange 302 (Some "/other") (Ok "") else mk_exchange 200 None (Ok "")).
Example c114_validate_ex :
  map rq_uri (wire (web_parse toy_domain toy_ipv6) (web_join toy_domain toy_ipv6) web_uri other_net 10
    (fst (validate (web_parse toy_domain toy_ipv6) any_header web_uri moved_wallet (mk_ar None (ByReference sample_uri)))))
  = ["https://v.example/req"; "https://v.example/other"].
Proof. vm_compute. reflexivity. Qed.
