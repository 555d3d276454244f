From Coq Require Import Lia.
From Verif Require Import Base BaseFacts Utf8 Json JsonFacts JsonText Base64 Base64Facts Sha256 Serde Url UrlEncoded Object Formats Params
  Metadata Dcql Effects Jwt Request Response Jwe ExMatcher ExWallet ExMetadata ExHttp ExShipped SpecRequest PfRequest PfResolve SpecDcql PfDcql
  SpecJwe SpecResponse SpecEncodings PfEncodings SpecExample PfExample SpecHttp PfHttp SpecShipped PfShipped SpecVerify
  P256 SpecP256 P256Facts SpecHolder.

Definition holder_pt : point := (Z.of_N holder_x, Z.of_N holder_y).
Lemma holder_multiple : exists k, holder_key = Ok k /\ (Z.pos k < Z.of_N p256_n)%Z /\ multiple (Z.pos k) holder_pt.
Proof.
  pose proof holder_climb as H. destruct holder_key as [k|] eqn:K; [|discriminate]. exists k. split; [reflexivity|]. split.
  - clear H. unfold holder_key in K. destruct (b64url_decode holder_d) as [b|]; [|discriminate].
    destruct (Nat.eqb (String.length b) 32); [|discriminate]. destruct (number_of b 0) as [|k']; [discriminate|].
    destruct (N.ltb_spec (N.pos k') p256_n); [|discriminate]. injection K as ->. lia.
  - destruct (climb k slopes) as [[a rest]|] eqn:C; [|discriminate]. apply climb_ok in C.
    apply andb_true_iff in H as [H1 H2]. apply N.eqb_eq in H1, H2. unfold to_point in C. now rewrite H1, H2 in C.
Qed.

(* ------------------------------------------------------------ the parts of the shipped credential *)
Definition shipped_sd : string := Eval vm_compute in join "~" (removelast (split_all "~" (mc_raw shipped_credential))).
Definition shipped_jwt : string := Eval vm_compute in match split_once "~" shipped_sd with Some (a, _) => a | None => "" end.
Definition shipped_rest : string := Eval vm_compute in match split_once "~" shipped_sd with Some (_, b) => b | None => "" end.
Definition shipped_old : string := Eval vm_compute in last (split_all "~" (mc_raw shipped_credential)) "".
Definition part (n : nat) : string := nth n (split_all "." shipped_jwt) "".
Definition shipped_payload : string := Eval vm_compute in match b64url_decode (part 1) with Some t => t | None => "" end.
Definition payload_claims : obj := Eval vm_compute in match json_of_text shipped_payload with Some (JObj m) => m | _ => [] end.

Lemma shipped_parts : mc_raw shipped_credential = shipped_sd +:+ "~" +:+ shipped_old /\ has_char "~" shipped_old = false
  /\ shipped_sd = shipped_jwt +:+ "~" +:+ shipped_rest /\ has_char "~" shipped_jwt = false
  /\ compact shipped_jwt (part 0) (part 1) (part 2)
  /\ b64url_decode (part 1) = Some shipped_payload /\ json_of_text shipped_payload = Some (JObj payload_claims).
Proof.
  split; [vm_compute; reflexivity|]. split; [reflexivity|]. split; [reflexivity|]. split; [reflexivity|].
  split; [split; [vm_compute; reflexivity|split; vm_compute; reflexivity]|]. split; vm_compute; reflexivity.
Qed.
Lemma shipped_only c : In c shipped_store -> c = shipped_credential.
Proof. destruct shipped_is as (S & _). rewrite S. now intros [<-|[]]. Qed.
Lemma issued_shipped x : issued (shipped_sd +:+ "~" +:+ x) (part 0) (part 1) (part 2) payload_claims.
Proof.
  destruct shipped_parts as (_ & _ & E & H & C & D & J). exists shipped_jwt, (shipped_rest +:+ "~" +:+ x), shipped_payload.
  split; [|auto]. rewrite E. now rewrite <- !sapp_assoc.
Qed.

Lemma shipped_bound : bound_to payload_claims holder_pt.
Proof.
  unfold bound_to, is_key, coordinate.
  eexists. eexists. split; [vm_compute; reflexivity|]. split; [vm_compute; reflexivity|].
  split; [reflexivity|]. split; [reflexivity|]. do 4 eexists. split; [reflexivity|]. split; [reflexivity|].
  split; [vm_compute; reflexivity|]. split; [vm_compute; reflexivity|].
  split; split; vm_compute; reflexivity.
Qed.

(** C110: the key that the shipped credential is bound to is the public key of the wallet's secret (a multiple of the base
    point by it, on the curve), and it is the key that the wallet serves. *)
Lemma c110_holder_pf :
  exists (k : positive) (pt : point),
    holder_key = Ok k /\ (Z.pos k < Z.of_N p256_n)%Z /\ multiple (Z.pos k) pt /\ on_curve pt
    /\ (forall c, In c shipped_store -> exists h64 p64 s64 claims, issued (mc_raw c) h64 p64 s64 claims /\ bound_to claims pt)
    /\ (forall bx by_ jwk, coordinate bx (fst pt) -> coordinate by_ (snd pt) -> public_jwk (bx, by_) = JObj jwk -> is_key jwk pt).
Proof.
  destruct holder_multiple as (k & K & L & M). exists k, holder_pt. split; [exact K|]. split; [exact L|]. split; [exact M|]. split; [|split].
  - unfold on_curve, eqm. apply Z.mod_divide; [discriminate|]. vm_compute. reflexivity.
  - intros c I. rewrite (shipped_only c I). destruct shipped_parts as (E & _). exists (part 0), (part 1), (part 2), payload_claims.
    split; [rewrite E; apply issued_shipped|exact shipped_bound].
  - intros bx by_ jwk Hx Hy [= <-]. split; [reflexivity|]. split; [reflexivity|].
    exists (b64url_encode bx), (b64url_encode by_), bx, by_. split; [reflexivity|]. split; [reflexivity|]. split; [apply b64_rt|].
    split; [apply b64_rt|]. auto.
Qed.
Fixpoint bytes_of (n : nat) (x : N) : string :=
  match n with O => EmptyString | S n => bytes_of n (x / 256)%N +:+ String (chr (x mod 256)) EmptyString end.
Example c110_holder_ex :
  holder_key = Ok 6041681177964390930484794174907659798248024937085509334100709001762926841241%positive
  /\ (exists c, In c shipped_store /\ mc_id c = "pid_credential")
  /\ coordinate (bytes_of 32 holder_x) (Z.of_N holder_x) /\ coordinate (bytes_of 32 holder_y) (Z.of_N holder_y).
Proof.
  split; [vm_compute; reflexivity|]. split; [exists shipped_credential; destruct shipped_is as (S & _); split; [rewrite S; now left|vm_compute; reflexivity]|].
  split; split; vm_compute; reflexivity.
Qed.

Lemma vp_text_inj a b : VpString a = VpString b -> a = b.
Proof. now intros [= ->]. Qed.
Lemma tilde_in a b : has_char "~" (a +:+ "~" +:+ b) = true.
Proof. rewrite !has_char_app. change (has_char "~" "~") with true. apply orb_true_r. Qed.
Lemma last_tilde a b a' b' : a +:+ "~" +:+ b = a' +:+ "~" +:+ b' -> has_char "~" b = false -> has_char "~" b' = false -> a' = a /\ b' = b.
Proof.
  intros E H H'. assert (U : rsplit_once "~" (a +:+ "~" +:+ b) = Some (a, b)) by now apply rsplit_once_some.
  assert (U' : rsplit_once "~" (a' +:+ "~" +:+ b') = Some (a', b')) by now apply rsplit_once_some.
  rewrite E, U' in U. injection U as -> ->. auto.
Qed.
Lemma presented_shipped sign now nonce aud c i : In c shipped_store -> presented sign now nonce aud (mc_raw c) i ->
  exists kb, i = VpString (shipped_sd +:+ "~" +:+ kb) /\ key_bound sign now (shipped_sd +:+ "~") nonce aud kb.
Proof.
  intros I P. rewrite (shipped_only c I) in P. destruct shipped_parts as (E & H & _). destruct P as [[N _]|(sd & old & kb & R & O & -> & K)].
  - rewrite E, tilde_in in N. discriminate N.
  - rewrite E in R.
    destruct (last_tilde _ _ _ _ R H O) as [-> _]. exists kb. split; [reflexivity|exact K].
Qed.

(** C110: so, if signing with the secret gives signatures that its public key verifies, every presentation the shipped
    wallet sends ends in a JWT that verifies under the very key its credential is bound to, and that names the nonce and the
    client of the request, the time, and the digest of all that precedes it. *)
Lemma c110_bound_pf :
  forall (url_parse : string -> option url) (ssi_header : obj -> option bool) (uri_ok : string -> bool)
    (jwk_ok : obj -> bool) (jwe_encrypt : obj -> obj -> obj -> res string) (lower sign : string -> string) (now : Z)
    (http : http_client) (endpoint : url) (auto_consent : bool) (p : params) (r : http_req)
    (verifies : point -> string -> string -> Prop),
    (forall k pt m, holder_key = Ok k -> multiple (Z.pos k) pt -> verifies pt m (sign m)) ->
    let run := authorize url_parse ssi_header uri_ok jwk_ok jwe_encrypt lower sign now http endpoint shipped_store auto_consent p in
    clock_ok now -> In r (posts (http_events (fst run))) ->
    exists ar a jwt vp st nonce aud, vp <> []
      /\ from_url url_parse (build_request_url endpoint p) endpoint = Ok ar
      /\ snd (resolve_request url_parse ssi_header uri_ok http ar) = Ok (a, Some jwt)
      /\ text_at "nonce" (aro_to_obj a) nonce /\ audience_of (aro_to_obj a) aud
      /\ (rq_body r = unencoded_form (mk_unencoded vp st)
          \/ exists header claims key jwe, claims_of claims vp st /\ jwe_encrypt header claims key = Ok jwe
               /\ rq_body r = form_serialize [("response", jwe)])
      /\ forall id items i, In (id, items) vp -> In i items ->
           exists sd kb h64 p64 s64 claims pt k64 b64 t64 sg,
             i = VpString (sd +:+ "~" +:+ kb) /\ issued (sd +:+ "~" +:+ kb) h64 p64 s64 claims /\ bound_to claims pt
             /\ key_bound sign now (sd +:+ "~") nonce aud kb
             /\ compact kb k64 b64 t64 /\ b64url_decode t64 = Some sg /\ verifies pt (k64 +:+ "." +:+ b64) sg.
Proof.
  intros up ssi uok jok enc lower sign now http ep consent p r ver V run C I.
  destruct (c74_contents_pf _ _ _ _ _ _ _ _ _ _ _ _ _ _ C I) as (ar & a & jwt & q & vp & st & nonce & aud & F & R & Q & N & A & _ & E1 & E2 & _ & _ & B).
  exists ar, a, jwt, vp, st, nonce, aud. split.
  { pose proof (dcql_nonempty _ _ Q) as Ne. destruct (dq_credentials q) as [|cq l]; [easy|].
    destruct (E2 cq (or_introl eq_refl)) as (items & i & c & Iv & _). intros ->. destruct Iv. }
  split; [exact F|]. split; [exact R|]. split; [exact N|]. split; [exact A|]. split.
  { destruct B as [[_ B]|[_ B]]; [now left|right]. destruct B as (h & cl & k & j & B). now exists h, cl, k, j. }
  intros id items i H1 H2. destruct (E1 _ _ _ H1 H2) as (cq & c & _ & _ & Ic & _ & P).
  apply (presented_shipped _ _ _ _ _ _ Ic) in P as (kb & -> & K).
  pose proof K as (h & pl & hb & pb & header & claims & Ek & Hh & Hp & _).
  destruct holder_multiple as (k & Kk & _ & M).
  exists shipped_sd, kb, (part 0), (part 1), (part 2), payload_claims, holder_pt, h, pl, (b64url_encode (sign (h +:+ "." +:+ pl))), (sign (h +:+ "." +:+ pl)).
  split; [reflexivity|]. split; [apply issued_shipped|]. split; [exact shipped_bound|]. split; [exact K|].
  split; [split; [exact Ek|split; [exact Hh|exact Hp]]|]. split; [apply b64_rt|]. exact (V k holder_pt _ Kk M).
Qed.
Example c110_bound_ex :
  (forall k pt m, holder_key = Ok k -> multiple (Z.pos k) pt ->
     (fun (pt : point) (m sg : string) => sg = "S") pt m ((fun _ : string => "S") m))
  /\ map rq_uri (posts (http_events (fst (shipped_run (shipped_query ["given_name"]))))) = ["https://v.example/resp"].
Proof. split; [reflexivity|vm_compute; reflexivity]. Qed.

Definition shipped_header : obj :=
  Eval vm_compute in match b64url_decode (part 0) with
                     | Some t => match json_of_text t with Some (JObj m) => m | _ => [] end
                     | None => []
                     end.
Lemma unvouched :
  header_text (part 0) shipped_header /\ obj_get "alg" shipped_header = Some (JStr "ES256")
  /\ (forall sg, b64url_decode (part 2) = Some sg -> String.length sg <> 64%nat)
  /\ length (disclosures (mc_raw shipped_credential)) = 4%nat
  /\ forall d, In d (disclosures (mc_raw shipped_credential)) -> ~ vouched payload_claims d.
Proof.
  split; [exists "{""alg"":""ES256"",""typ"":""vc+sd-jwt""}"; split; vm_compute; reflexivity|]. split; [reflexivity|].
  split. { assert (X : match b64url_decode (part 2) with Some sg => Nat.eqb (String.length sg) 64 | None => false end = false) by (vm_compute; reflexivity).
    intros sg E. rewrite E in X. now apply Nat.eqb_neq in X. }
  split; [vm_compute; reflexivity|].
  assert (X : forallb (fun d => match obj_get "_sd" payload_claims with
                                | Some (JArr l) => forallb (fun j => match j with JStr x => negb (String.eqb x (b64url_encode (sha256 d))) | _ => true end) l
                                | _ => true
                                end) (disclosures (mc_raw shipped_credential)) = true) by (vm_compute; reflexivity).
  intros d I (l & E & J). rewrite forallb_forall in X. specialize (X d I). rewrite E in X. rewrite forallb_forall in X. specialize (X _ J).
  cbn beta iota in X. rewrite String.eqb_refl in X. discriminate.
Qed.

(** C110: but no verifier of SD-JWTs can accept any presentation of the shipped wallet: the issuer's signature is not 64
    bytes long, as one for ES256 is, and the issuer vouches for none of the disclosures. *)
Lemma c110_credential_refuted_pf :
  forall (url_parse : string -> option url) (ssi_header : obj -> option bool) (uri_ok : string -> bool)
    (jwk_ok : obj -> bool) (jwe_encrypt : obj -> obj -> obj -> res string) (lower sign : string -> string) (now : Z)
    (http : http_client) (endpoint : url) (auto_consent : bool) (p : params) (r : http_req),
    let run := authorize url_parse ssi_header uri_ok jwk_ok jwe_encrypt lower sign now http endpoint shipped_store auto_consent p in
    clock_ok now -> In r (posts (http_events (fst run))) ->
    exists vp st, vp <> []
      /\ (rq_body r = unencoded_form (mk_unencoded vp st)
          \/ exists header claims key jwe, claims_of claims vp st /\ jwe_encrypt header claims key = Ok jwe
               /\ rq_body r = form_serialize [("response", jwe)])
      /\ forall id items i, In (id, items) vp -> In i items ->
           exists t h64 p64 s64 header claims,
             i = VpString t /\ issued t h64 p64 s64 claims
             /\ header_text h64 header /\ obj_get "alg" header = Some (JStr "ES256")
             /\ (forall sg, b64url_decode s64 = Some sg -> String.length sg <> 64%nat)
             /\ length (disclosures t) = 4%nat /\ forall d, In d (disclosures t) -> ~ vouched claims d.
Proof.
  intros up ssi uok jok enc lower sign now http ep consent p r run C I.
  destruct (c74_contents_pf _ _ _ _ _ _ _ _ _ _ _ _ _ _ C I) as (ar & a & jwt & q & vp & st & nonce & aud & F & R & Q & N & A & _ & E1 & E2 & _ & _ & B).
  exists vp, st. split.
  { pose proof (dcql_nonempty _ _ Q) as Ne. destruct (dq_credentials q) as [|cq l]; [easy|].
    destruct (E2 cq (or_introl eq_refl)) as (items & i & c & Iv & _). intros ->. destruct Iv. }
  split.
  { destruct B as [[_ B]|[_ B]]; [now left|right]. destruct B as (h & cl & k & j & B). now exists h, cl, k, j. }
  intros id items i H1 H2. destruct (E1 _ _ _ H1 H2) as (cq & c & _ & _ & Ic & _ & P).
  pose proof (presented_discloses _ _ _ _ _ _ P) as (t & Et & D).
  apply (presented_shipped _ _ _ _ _ _ Ic) in P as (kb & Ek & _). rewrite (shipped_only c Ic) in D.
  rewrite Ek in Et. apply vp_text_inj in Et. rewrite <- Et in D.
  exists (shipped_sd +:+ "~" +:+ kb), (part 0), (part 1), (part 2), shipped_header, payload_claims.
  split; [exact Ek|]. split; [apply issued_shipped|]. rewrite D. exact unvouched.
Qed.
