From Coq Require Import Lia.
From Verif Require Import Base BaseFacts Utf8 Utf8Facts Json JsonFacts JsonText JsonTextFacts Serde MapFacts Base64 Base64Facts Sha256 Url Object
  Formats Params Metadata Effects Jwt Request Verify Did X509 SpecCert CertFacts Client Spec SpecObject SpecRequest SpecVerify ParamFacts PfText PfRequest PfResolve PfVerify PfDid PfX509
  PfClient Signer SpecSigner.

Lemma same_text_iff a b : same_text a b = true <-> a = b.
Proof.
  destruct a, b; cbn; [rewrite String.eqb_eq| | |]; split; congruence.
Qed.
Lemma jwk_eqb_iff a b : jwk_eqb a b = true <-> a = b.
Proof.
  destruct a as [a1 a2 a3 a4 a5 a6 a7], b as [b1 b2 b3 b4 b5 b6 b7]. unfold jwk_eqb. cbn [jk_alg jk_kid jk_use jk_crv jk_x jk_y jk_d]. rewrite !andb_true_iff, !same_text_iff. split.
  - intros ((((((-> & ->) & ->) & ->) & ->) & ->) & ->). reflexivity.
  - intros H. injection H. tauto.
Qed.
Lemma p256_read p : jwk_of_text (p256_text p) = Ok (bare p).
Proof.
  destruct p as [x y]. unfold jwk_of_text, p256_text. rewrite parse_raw_print.
  - cbn [fst snd]. unfold jwk_bytes, jwk_text. cbn [filter String.eqb Ascii.eqb Bool.eqb fst snd rbind same_text of_bool]. rewrite !b64url_rt. reflexivity.
  - cbn [jtext_ok forallb fst snd]. unfold b64url_encode. rewrite !b64_utf8. reflexivity.
  - cbn. lia.
Qed.
Lemma new_iff {secret} (public : secret -> string * string) k sg : p256_new public k = Ok sg <-> sg = mk_p256 k (bare (public k)).
Proof.
  unfold p256_new. rewrite p256_read. cbn [rbind]. split; [intros H; now injection H as <-|intros ->; reflexivity].
Qed.

(** C106: every P-256 key makes a signer.  It names the algorithm ES256 in both of its roles, gives no key id, its JWK is the
    public point and nothing else, and what it signs, in both roles, is the key's signature. *)
Lemma c106_signer_pf :
  forall (secret : Type) (public : secret -> string * string) (ecdsa : secret -> string -> string) (k : secret),
    exists sg, p256_new public k = Ok sg
      /\ sg_alg (request_signer ecdsa sg) = Ok "ES256" /\ fetch_info sg = ("ES256", None)
      /\ sg_jwk (request_signer ecdsa sg) = Ok (bare (public k))
      /\ forall m, sg_sign (request_signer ecdsa sg) m = ecdsa k m /\ sign_bytes ecdsa sg m = Ok (ecdsa k m).
Proof.
  intros secret public ecdsa k. eexists. split; [now apply new_iff|]. cbn. auto.
Qed.
Definition toy_public (k : string) : string * string := (k, k +:+ k).
Definition toy_ecdsa (k m : string) : string := k +:+ m.
Definition toy_p256 (k : string) : p256_signer := mk_p256 k (bare (toy_public k)).
Example c106_signer_ex :
  p256_new toy_public "K" = Ok (mk_p256 "K" (mk_jwk None None None (Some "P-256") (Some "K") (Some "KK") None))
  /\ p256_text (toy_public "K") = "{""kty"":""EC"",""crv"":""P-256"",""x"":""Sw"",""y"":""S0s""}".
Proof. vm_compute. split; reflexivity. Qed.

(** C106: a DID client can be made with the signer exactly when the verification method has a fragment and resolves to the
    JWK of the public point with nothing else in it. *)
Lemma c106_did_made_pf :
  forall (secret : Type) (public : secret -> string * string) (ecdsa : secret -> string -> string) (k : secret) (sg : p256_signer)
    (resolver : string -> res jwk) (vm : string),
    p256_new public k = Ok sg ->
    ((exists c, did_client jwk_eqb resolver vm (request_signer ecdsa sg) = Ok c)
     <-> (exists did fragment, vm = did +:+ "#" +:+ fragment) /\ resolver vm = Ok (bare (public k))).
Proof.
  intros secret public ecdsa k sg resolver vm H. apply new_iff in H. subst sg. unfold did_client. cbn [sg_jwk request_signer ps_jwk]. split.
  - intros [c H]. apply rbind_ok in H as ([id f] & Hr & H). apply ok_or_ok in Hr. apply rsplit_once_some in Hr as [-> _].
    apply rbind_ok in H as (j & Hj & H). apply context_ok in Hj. apply rbind_ok in H as (own & Ho & H). injection Ho as <-.
    apply rbind_ok in H as (u & He & H). apply of_bool_ok, jwk_eqb_iff in He. subst j. split; [now exists id, f|exact Hj].
  - intros [(did & f & ->) Hj]. rewrite Hj. destruct (rsplit_once "#" (did +:+ "#" +:+ f)) as [[id g]|] eqn:E.
    + cbn [ok_or rbind context]. rewrite (proj2 (jwk_eqb_iff _ _) eq_refl). cbn [of_bool rbind]. eexists. reflexivity.
    + exfalso. revert E. clear. intros E. apply rsplit_once_none in E. rewrite !has_char_app in E. cbn in E.
      now rewrite Bool.orb_true_r in E.
Qed.
Definition p256_resolver (j : jwk) (vm : string) : res jwk := if String.eqb vm "did:web:v.example#1" then Ok j else Err "unknown".
Example c106_did_made_ex :
  is_ok (did_client jwk_eqb (p256_resolver (bare (toy_public "K"))) "did:web:v.example#1" (request_signer toy_ecdsa (toy_p256 "K"))) = true
  /\ is_ok (did_client jwk_eqb (p256_resolver (bare (toy_public "L"))) "did:web:v.example#1" (request_signer toy_ecdsa (toy_p256 "K"))) = false.
Proof. vm_compute. split; reflexivity. Qed.

(** C106: "a signer and a DID document with the same public key fit together" fails: when the document's JWK has an
    algorithm, a key id or a use beside the key, no DID client can be made. *)
Lemma c106_annotated_refuted_pf :
  exists (secret : Type) (public : secret -> string * string) (ecdsa : secret -> string -> string) (k : secret) (sg : p256_signer)
    (resolver : string -> res jwk) (vm : string) (j : jwk),
    p256_new public k = Ok sg /\ resolver vm = Ok j
    /\ (exists own, sg_jwk (request_signer ecdsa sg) = Ok own /\ same_key j own)
    /\ (exists did fragment, vm = did +:+ "#" +:+ fragment)
    /\ did_client jwk_eqb resolver vm (request_signer ecdsa sg) = Err "key mismatch".
Proof.
  set (j := mk_jwk (Some "ES256") None None (Some "P-256") (Some "K") (Some "KK") None).
  exists string, toy_public, toy_ecdsa, "K", (toy_p256 "K"), (p256_resolver j), "did:web:v.example#1", j.
  split; [reflexivity|]. split; [reflexivity|]. split; [exists (bare (toy_public "K")); repeat split|]. split; [now exists "did:web:v.example", "1"|].
  vm_compute. reflexivity.
Qed.
Example c106_annotated_refuted_ex :
  forall j, In j [mk_jwk None (Some "1") None (Some "P-256") (Some "K") (Some "KK") None; mk_jwk None None (Some "sig") (Some "P-256") (Some "K") (Some "KK") None] ->
    did_client jwk_eqb (p256_resolver j) "did:web:v.example#1" (request_signer toy_ecdsa (toy_p256 "K")) = Err "key mismatch".
Proof. intros j [<-|[<-|[]]]; vm_compute; reflexivity. Qed.

(** C106: what a DID client with the signer signs is accepted by the wallet's DID verification with the same resolver, if the
    wallet supports ES256 and trusts the DID. *)
Lemma c106_did_pf :
  forall (secret : Type) (public : secret -> string * string) (ecdsa : secret -> string -> string) (k : secret) (sg : p256_signer)
    (ssi_header : obj -> option bool) (sig_ok : jwk -> string -> string -> string -> bool) (resolver : string -> res jwk)
    (did fragment : string) (c : client) (body a : aro) (jwt : string) (wm : wallet_metadata) (trusted : option (list string)),
    (forall m, sig_ok (bare (public k)) "ES256" m (ecdsa k m) = true) ->
    p256_new public k = Ok sg -> did_client jwk_eqb resolver (did +:+ "#" +:+ fragment) (request_signer ecdsa sg) = Ok c ->
    has_char "#" did = false -> has_char "#" fragment = false -> utf8_valid (did +:+ "#" +:+ fragment) = true ->
    alg_supported wm "ES256" -> (forall l, trusted = Some l -> In did l) ->
    (forall h, did_header "ES256" (did +:+ "#" +:+ fragment) = JObj h -> ssi_header h = Some true) ->
    jwf (aro_to_json body) = true -> jdepth (aro_to_json body) <= 127 ->
    cl_jwt c body = Ok jwt -> ro_client_id a = Some (cl_client_id c) ->
    verify_with_resolver ssi_header sig_ok resolver wm a jwt trusted = Ok tt.
Proof.
  intros secret public ecdsa k sg ssi sig_ok resolver did fragment c body a jwt wm trusted Hs Hn Hc Hd Hf Hu Ha Ht Hh Hw Hj Hjwt Hid.
  apply new_iff in Hn. subst sg.
  apply (c27_did_pf jwk ssi sig_ok jwk_eqb resolver (request_signer ecdsa (mk_p256 k (bare (public k)))) did fragment "ES256" c body a jwt wm trusted);
    try assumption; try reflexivity.
  - intros x y. apply jwk_eqb_iff.
  - intros x m Hx. cbn in Hx. injection Hx as <-. apply Hs.
Qed.
Definition p256_sig (j : jwk) (alg m sg : string) : bool :=
  match jk_x j with Some k => String.eqb alg "ES256" && String.eqb sg (k +:+ m) | None => false end.
Example c106_did_ex :
  let resolver := p256_resolver (bare (toy_public "K")) in
  roundtrip (did_client jwk_eqb resolver "did:web:v.example#1" (request_signer toy_ecdsa (toy_p256 "K")))
    (fun a jwt => verify_with_resolver any_header p256_sig resolver did_wallet a jwt (Some ["did:web:v.example"])) = Ok tt.
Proof. vm_compute. reflexivity. Qed.

(** C106: what an X.509 client with the signer signs is accepted by the wallet's verification with the library's P-256 verifier,
    if the leaf certificate holds the signer's public point and the wallet supports ES256. *)
Lemma c106_x509_pf :
  forall (secret root : Type) (public : secret -> string * string) (ecdsa : secret -> string -> string)
    (verifies : string * string -> string -> string -> bool) (spki_key : string -> option (string * string))
    (cert_of_der : string -> option cert) (to_der : cert -> res string) (k : secret) (sg : p256_signer)
    (leaf : cert) (rest : list cert) (c : client) (body a : aro) (jwt : string) (wm : wallet_metadata) (roots : option (list root)),
    signs public ecdsa verifies -> (forall x der, to_der x = Ok der -> cert_of_der der = Some x) ->
    p256_new public k = Ok sg -> spki_key (c_spki leaf) = Some (public k) -> alg_supported wm "ES256" ->
    cl_jwt c body = Ok jwt -> ro_client_id a = Some (cl_client_id c) ->
    (x509_hash_client to_der (leaf :: rest) (request_signer ecdsa sg) = Ok c ->
     x509_hash_validate cert_of_der (p256_from_spki spki_key) verifies wm a jwt roots = Ok tt)
    /\ (x509_san_client to_der (leaf :: rest) (request_signer ecdsa sg) = Ok c ->
        x509_san_validate cert_of_der (p256_from_spki spki_key) verifies wm a jwt roots = Ok tt).
Proof.
  intros secret root public ecdsa verifies spki_key cod to_der k sg lf rest c body a jwt wm roots Hs Hd Hn Hk Ha Hj Hid.
  apply new_iff in Hn. subst sg.
  split; intros Hc.
  - apply (c27_x509_hash_pf jwk _ root cod to_der (p256_from_spki spki_key) verifies (request_signer ecdsa (mk_p256 k (bare (public k)))) lf rest "ES256" (public k) c body a jwt wm roots);
      try assumption; try reflexivity. intros m. apply Hs.
  - apply (c27_x509_san_pf jwk _ root cod to_der (p256_from_spki spki_key) verifies (request_signer ecdsa (mk_p256 k (bare (public k)))) lf rest "ES256" (public k) c body a jwt wm roots);
      try assumption; try reflexivity. intros m. apply Hs.
Qed.
Definition toy_point (spki : string) : option (string * string) := Some (toy_public spki).
Definition point_verifies (p : string * string) (m sg : string) : bool := String.eqb sg (fst p +:+ m).
Example c106_x509_ex :
  signs toy_public toy_ecdsa point_verifies /\ toy_point "K" = Some (toy_public "K")
  /\ roundtrip (x509_hash_client toy_der toy_chain (request_signer toy_ecdsa (toy_p256 "K")))
       (fun a jwt => x509_hash_validate toy_cert (p256_from_spki toy_point) point_verifies did_wallet a jwt (None : option (list nat))) = Ok tt
  /\ roundtrip (x509_san_client toy_der toy_chain (request_signer toy_ecdsa (toy_p256 "K")))
       (fun a jwt => x509_san_validate toy_cert (p256_from_spki toy_point) point_verifies did_wallet a jwt (None : option (list nat))) = Ok tt.
Proof. split; [intros k m; apply String.eqb_refl|]. vm_compute. repeat split; reflexivity. Qed.

Lemma x5c_leaf cod to_der (wm : wallet_metadata) k (lf : cert) rest body jwt
    (s : signer k) alg h64 p64 s64 alg' der c' :
  (forall x der, to_der x = Ok der -> cod der = Some x) -> sg_alg s = Ok alg -> utf8_valid alg = true ->
  x509_jwt to_der (lf :: rest) s body = Ok jwt ->
  leaf cod wm jwt = Ok (h64, p64, s64, alg', der, c') ->
  alg' = alg /\ c' = lf /\ b64url_decode s64 = Some (sg_sign s (h64 +:+ "." +:+ p64)).
Proof.
  intros Hd Ha Hu Hj Hl. unfold x509_jwt in Hj. rewrite Ha in Hj. cbn [rbind] in Hj.
  apply rbind_ok in Hj as (ders & Hm & Hj). cbn [mapM] in Hm. apply rbind_ok in Hm as (d & Hl0 & Hm). apply rbind_ok in Hm as (t & _ & Hm).
  injection Hm as <-. injection Hj as <-.
  destruct (x5c_header_ok alg (d :: t) Hu) as [W D]. destruct (made_jwt _ body s W D) as (a64 & b64 & c64 & Hs & Hh & Hp & Hg).
  pose proof Hl as Hl'. apply leaf_iff in Hl' as (h & Hs' & Hh' & Ha' & Hal & _).
  destruct (compact_unique _ _ _ _ _ _ _ Hs Hs') as (-> & -> & ->).
  destruct Hh as (t1 & E1 & E2), Hh' as (t2 & E3 & E4). rewrite E1 in E3. injection E3 as <-. rewrite E2 in E4. injection E4 as <-.
  unfold text_at in Ha'. cbn in Ha'. injection Ha' as <-.
  assert (X : leaf cod wm (make_jwt (x5c_header alg (map b64std_encode (d :: t))) body s) = Ok (h64, p64, s64, alg, d, lf)).
  { apply leaf_iff. eexists. split; [exact Hs|]. split; [exists t1; split; [exact E1|exact E2]|]. split; [reflexivity|]. split; [exact Hal|]. split; [|now apply Hd].
    destruct (b64_pad_suffix Std d) as (q & Eq & Hq). apply all_equals in Hq as [n ->]. exists n. eexists. cbn [obj_get String.eqb Ascii.eqb Bool.eqb map]. unfold b64std_encode at 1.
    rewrite Eq. reflexivity. }
  pose proof (eq_trans (eq_sym Hl) X) as Z. injection Z as _ ->. auto.
Qed.

(** C106: X.509 clients are made without looking at the certificate's key.  One whose leaf certificate holds another point than
    the signer's is made all the same, signs every request, and no wallet with the library's verification accepts any. *)
Lemma c106_mismatch_pf :
  forall (secret root : Type) (public : secret -> string * string) (ecdsa : secret -> string -> string)
    (verifies : string * string -> string -> string -> bool) (spki_key : string -> option (string * string))
    (cert_of_der : string -> option cert) (to_der : cert -> res string) (k : secret) (sg : p256_signer)
    (leaf : cert) (p : string * string) (dns der : string) (more : list string),
    (forall x der, to_der x = Ok der -> cert_of_der der = Some x) ->
    p256_new public k = Ok sg -> spki_key (c_spki leaf) = Some p -> (forall m, verifies p m (ecdsa k m) = false) ->
    dns_names leaf (dns :: more) -> to_der leaf = Ok der ->
    exists ch cs,
      x509_hash_client to_der [leaf] (request_signer ecdsa sg) = Ok ch
      /\ x509_san_client to_der [leaf] (request_signer ecdsa sg) = Ok cs
      /\ forall body, exists jwt, cl_jwt ch body = Ok jwt /\ cl_jwt cs body = Ok jwt
           /\ forall (wm : wallet_metadata) (a : aro) (roots : option (list root)),
                x509_hash_validate cert_of_der (p256_from_spki spki_key) verifies wm a jwt roots <> Ok tt
                /\ x509_san_validate cert_of_der (p256_from_spki spki_key) verifies wm a jwt roots <> Ok tt.
Proof.
  intros secret root public ecdsa verifies spki_key cod to_der k sg lf p dns der more Hrt Hn Hk Hv Hdns Hder.
  apply dns_cons in Hdns. apply new_iff in Hn. subst sg. set (s := request_signer ecdsa (mk_p256 k (bare (public k)))).
  eexists. eexists. split; [cbn [x509_hash_client]; rewrite Hder; reflexivity|]. split; [cbn [x509_san_client]; rewrite Hdns; reflexivity|].
  intros body. cbn [cl_jwt]. assert (X : exists jwt, x509_jwt to_der [lf] s body = Ok jwt).
  { unfold x509_jwt. cbn [s sg_alg request_signer rbind mapM]. rewrite Hder. cbn [rbind]. eexists. reflexivity. }
  destruct X as [jwt X]. exists jwt. split; [exact X|]. split; [exact X|]. intros wm a roots.
  assert (Y : forall h64 p64 s64 alg d c', leaf cod wm jwt = Ok (h64, p64, s64, alg, d, c') ->
            check_signature (p256_from_spki spki_key) verifies h64 p64 s64 alg c' <> Ok tt).
  { intros h64 p64 s64 alg d c' Hl Hs.
    destruct (x5c_leaf cod to_der wm jwk lf [] body jwt s "ES256" h64 p64 s64 alg d c') as (-> & -> & E);
      [exact Hrt|reflexivity|reflexivity|exact X|exact Hl|].
    apply signature_iff in Hs as (v & sgn & E1 & E2 & E3). unfold p256_from_spki in E1. rewrite String.eqb_refl, Hk in E1. injection E1 as <-.
    rewrite E in E2. injection E2 as <-. cbn [s sg_sign request_signer ps_key] in E3. now rewrite Hv in E3. }
  split; intros H; [unfold x509_hash_validate in H|unfold x509_san_validate in H];
    apply rbind_ok in H as (cid & _ & H); cbv zeta in H; apply rbind_ok in H as ([[[[[h64 p64] s64] alg] d] c'] & Hl & H);
    apply rbind_ok in H as (u & _ & H); exact (Y _ _ _ _ _ _ Hl H).
Qed.
Example c106_mismatch_ex :
  (forall m, point_verifies (toy_public "K") m (toy_ecdsa "L" m) = false)
  /\ c_dns (named ["other.example"; "v.example"] "K") = ["other.example"; "v.example"]
  /\ toy_point (c_spki (named ["other.example"; "v.example"] "K")) = Some (toy_public "K")
  /\ is_ok (x509_san_client toy_der toy_chain (request_signer toy_ecdsa (toy_p256 "L"))) = true
  /\ is_ok (roundtrip (x509_san_client toy_der toy_chain (request_signer toy_ecdsa (toy_p256 "L")))
       (fun a jwt => x509_san_validate toy_cert (p256_from_spki toy_point) point_verifies did_wallet a jwt (None : option (list nat)))) = false.
Proof. split; [intros m; reflexivity|]. vm_compute. repeat split; reflexivity. Qed.
