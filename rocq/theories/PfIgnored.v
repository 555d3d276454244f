From Coq Require Import Lia.
From Verif Require Import Base BaseFacts Utf8 Json JsonFacts JsonText JsonTextFacts Base64 Base64Facts Sha256 Serde Url Object Formats Params Metadata Dcql Effects Jwt
  Request Verify Did X509 Client Response Jwe ExMatcher ExWallet.
From Verif Require Import Spec SpecObject SpecRequest SpecVerify SpecCert SpecExample SpecOrder SpecIgnored ParamFacts PfRequest PfResolve PfVerify PfDid PfX509 PfExample LikeFacts.

(* ------------------------------------------------------------ reading *)
Lemma same_uo {T} l (P : tparam T) o o' : same_at l o o' -> In (tp_key P) l -> uo_get P o = uo_get P o'.
Proof. intros S I. unfold uo_get. now rewrite (S _ I). Qed.
Lemma same_uod {T} l (P : tparam T) d o o' : same_at l o o' -> In (tp_key P) l -> uo_get_or_default P d o = uo_get_or_default P d o'.
Proof. intros S I. unfold uo_get_or_default. now rewrite (S _ I). Qed.
Ltac listed := cbn; tauto.

(** C121: what a request object says outside the parameters that are read has no part in whether it is accepted, nor in any of its
    fields. *)
Lemma c121_request_pf : forall up o o', same_parameters o o' -> agree same_request (aro_of_obj up o) (aro_of_obj up o').
Proof.
  intros up o o' P. pose proof (proj1 P) as S. unfold aro_of_obj.
  rewrite <- (same_uo _ p_client_id _ _ S ltac:(listed)), <- (same_uo _ (p_redirect_uri up) _ _ S ltac:(listed)),
    <- (same_uo _ (p_response_uri up) _ _ S ltac:(listed)), <- (same_uod _ p_response_mode default_mode _ _ S ltac:(listed)),
    <- (same_uo _ p_response_type _ _ S ltac:(listed)), <- (same_uo _ p_nonce _ _ S ltac:(listed)).
  apply agree_bind with (R := eq); [now apply agree_eq|intros cid ? <-]. cbv zeta.
  apply agree_bind with (R := eq); [now apply agree_eq|intros mode ? <-].
  apply agree_bind with (R := eq); [now apply agree_eq|intros r ? <-].
  apply agree_bind with (R := eq); [now apply agree_eq|intros rt ? <-].
  apply agree_bind with (R := eq); [now apply agree_eq|intros nonce ? <-].
  cbn [agree]. repeat split; try apply P; reflexivity.
Qed.
(** Expired long ago, and meant for somebody else. *)
Definition outdated (o : obj) : obj := obj_insert "aud" (JStr "https://other-wallet.example") (obj_insert "exp" (JInt 1) o).
Lemma outdated_same o : same_parameters o (outdated o).
Proof.
  unfold outdated. split.
  - intros k I. rewrite !obj_get_insert. assert (D : k <> "aud" /\ k <> "exp") by (cbn in I; intuition congruence). destruct D as [D1 D2].
    apply String.eqb_neq in D1, D2. now rewrite D1, D2.
  - rewrite !obj_get_insert. cbn [String.eqb Ascii.eqb Bool.eqb]. destruct (obj_get "client_metadata" o); cbn [both]; [now left|exact I].
Qed.
Example c121_request_ex : same_parameters sample_request (outdated sample_request) /\ outdated sample_request <> sample_request
  /\ is_ok (aro_of_obj simple_parse sample_request) = true /\ is_ok (aro_of_obj simple_parse (outdated sample_request)) = true.
Proof. split; [apply outdated_same|]. split; [discriminate|]. split; vm_compute; reflexivity. Qed.

Lemma same_cm a a' : same_request a a' -> both (agree (same_at client_members)) (aro_get p_client_metadata a) (aro_get p_client_metadata a').
Proof.
  intros [[_ P] _]. unfold aro_get, uo_get. change (tp_key p_client_metadata) with "client_metadata".
  destruct (obj_get "client_metadata" (ro_inner a)) as [j|], (obj_get "client_metadata" (ro_inner a')) as [j'|]; cbn [both] in *; try easy.
  destruct P as [->|(m & m' & -> & -> & P)]; [|exact P]. destruct (tp_of p_client_metadata j'); cbn [agree]; [intros k _|]; reflexivity.
Qed.
(** C121: nor in the check against the wallet's metadata, of which only four members are read, and of the client's metadata only
    two. *)
Lemma c121_gate_pf : forall w w' a a', same_wallet w w' -> same_request a a' ->
  validate_against_metadata w a = validate_against_metadata w' a'.
Proof.
  intros w w' a a' W Q. pose proof (same_cm _ _ Q) as C. destruct Q as ([S _] & _ & Es & _). unfold validate_against_metadata, resolve_client_metadata.
  rewrite <- Es, <- (same_uod _ p_client_id_prefixes default_prefixes _ _ W ltac:(listed)), <- (same_uo _ p_encryption_algs _ _ W ltac:(listed)),
    <- (same_uo _ p_encryption_encs _ _ W ltac:(listed)).
  assert (Em : aro_get p_response_mode a = aro_get p_response_mode a') by (apply (same_uo _ p_response_mode _ _ S); listed). rewrite <- Em.
  apply agree_eq. apply agree_bind with (R := eq); [now apply agree_eq|intros _ _ _].
  apply agree_bind with (R := same_at client_members).
  { destruct (aro_get p_client_metadata a), (aro_get p_client_metadata a'); cbn [both] in C; try easy. }
  intros cm cm' Cm. rewrite <- (same_uo _ p_jwks _ _ Cm ltac:(listed)), <- (same_uod _ p_response_encs default_encs _ _ Cm ltac:(listed)).
  apply agree_eq. reflexivity.
Qed.
Example c121_gate_ex :
  let m := [("encrypted_response_enc_values_supported", jstrs ["A128GCM"])] in
  let w := mk_wm [] (mk_url "openid4vp" None "" true None None) [] in
  let o c := obj_insert "client_metadata" (JObj c) sample_request in
  same_client (JObj m) (JObj (("client_name", JStr "x") :: m)) /\ same_wallet w (mk_wm [("issuer", JStr "i")] (mk_url "openid4vp" None "" true None None) [])
  /\ rmap (validate_against_metadata w) (aro_of_obj simple_parse (o m)) = rmap (validate_against_metadata w) (aro_of_obj simple_parse (o (("client_name", JStr "x") :: m)))
  /\ is_ok (aro_of_obj simple_parse (o m)) = true.
Proof.
  split; [|split; [|split; vm_compute; reflexivity]].
  - right. do 2 eexists. split; [reflexivity|]. split; [reflexivity|]. intros k I. cbn in I. destruct I as [<-|[<-|[]]]; reflexivity.
  - intros k I. cbn in I. repeat (destruct I as [<-|I]; [reflexivity|]). destruct I.
Qed.

(** C121: nor in the answer: the credential query, the state and the encrypted response. *)
Lemma c121_answer_pf : forall a a', same_request a a' ->
  aro_dcql a = aro_dcql a' /\ aro_state a = aro_state a'
  /\ forall jwk_ok encrypt vp st, build_encrypted_response jwk_ok encrypt a vp st = build_encrypted_response jwk_ok encrypt a' vp st.
Proof.
  intros a a' Q. pose proof (same_cm _ _ Q) as C. destruct Q as ([S _] & _).
  split; [apply (same_uo _ p_dcql _ _ S); listed|]. split; [apply (same_uo _ p_state _ _ S); listed|].
  intros jwk_ok encrypt vp st. unfold build_encrypted_response, resolve_client_metadata. apply agree_eq.
  apply agree_bind with (R := same_at client_members).
  { destruct (aro_get p_client_metadata a), (aro_get p_client_metadata a'); cbn [both] in C; try easy; try exact C; now cbn. }
  intros cm cm' Cm. unfold cm_jwks, cm_encs.
  rewrite <- (same_uo _ p_jwks _ _ Cm ltac:(listed)), <- (same_uod _ p_response_encs default_encs _ _ Cm ltac:(listed)).
  apply agree_eq. reflexivity.
Qed.
Example c121_answer_ex :
  let q := ex_object "x509_san_dns:v.example" in
  same_parameters q (outdated q) /\ option_map is_ok (match aro_of_obj simple_parse (outdated q) with Ok a => aro_dcql a | Err _ => None end) = Some true.
Proof. split; [apply outdated_same|vm_compute; reflexivity]. Qed.

(* ------------------------------------------------------------ verification of signatures *)
Lemma same_cid a a' : same_request a a' -> ro_client_id a = ro_client_id a'.
Proof. intros (_ & E & _). exact E. Qed.

(** C121: a request object accepted because of its signer's DID stays accepted when its signer signs it again with anything else
    in the other members: whatever dates, audience or issuer it then names. *)
Lemma c121_did_pf : forall (key : Type) (ssi_header : obj -> option bool) (sig_ok : key -> string -> string -> string -> bool)
    (resolver : string -> res key) (wm : wallet_metadata) (a a' : aro) (jwt jwt' : string) (trusted : option (list string)),
    same_request a a' -> reissued ssi_header jwt jwt' -> (forall k alg, signed_alike (sig_ok k alg) jwt jwt') ->
    verify_with_resolver ssi_header sig_ok resolver wm a jwt trusted = Ok tt ->
    verify_with_resolver ssi_header sig_ok resolver wm a' jwt' trusted = Ok tt.
Proof.
  intros key ssi sig_ok resolver wm a a' jwt jwt' trusted Q (h64 & h & enc & p64 & p64' & s64 & s64' & sg & sg' & t & t' & o & o' & C & C' & Hh & He & Hs & Hs' & Hp & Hp' & Hj & Hj' & _) G H.
  apply c23_did_pf in H as (h1 & p1 & s1 & h2 & alg & C1 & Hh2 & Ha & Hl & H). destruct (compact_unique _ _ _ _ _ _ _ C C1) as (<- & <- & <-).
  assert (h2 = h) by (eapply header_unique; eassumption). subst h2.
  apply c23_did_pf. exists h64, p64', s64', h, alg. repeat (split; [assumption|]). destruct H as [H|(N & kid & did & fragment & cid & k & enc' & pl & j & sg1 & Hk & Hd & Hn & Hc & Hm & Ht & Hr & Hg & Hv & _)].
  - now left.
  - right. split; [exact N|]. assert (sg1 = sg) by congruence. subst sg1. exists kid, did, fragment, cid, k, enc, t', (JObj o'), sg'.
    rewrite <- (same_cid _ _ Q). repeat (split; [assumption|]). split; [exact (G k alg _ _ _ _ _ _ _ _ C Hs C' Hs' Hv)|]. repeat (split; [assumption|]). assumption.
Qed.
(** The same signer signs both. *)
Lemma made_compact {key} h o (s : signer key) :
  compact (make_jwt h (body_of o) s) (b64url_encode (jprint h)) (b64url_encode (jprint (JObj o)))
    (b64url_encode (sg_sign s (b64url_encode (jprint h) +:+ "." +:+ b64url_encode (jprint (JObj o))))).
Proof. split; [reflexivity|]. split; apply b64url_no_dot. Qed.
Lemma made_reissued {key} (s : signer key) ssi h o o' : jwf (JObj h) = true -> Nat.leb (jdepth (JObj h)) 127 = true ->
  jwf (JObj o) = true -> Nat.leb (jdepth (JObj o)) 127 = true -> jwf (JObj o') = true -> Nat.leb (jdepth (JObj o')) 127 = true ->
  ssi h = Some true -> same_parameters o o' -> reissued ssi (make_jwt (JObj h) (body_of o) s) (make_jwt (JObj h) (body_of o') s).
Proof.
  intros W D W1 D1 W2 D2 E P. apply Nat.leb_le in D, D1, D2.
  exists (b64url_encode (jprint (JObj h))), h, true. do 6 eexists. exists (jprint (JObj o)), (jprint (JObj o')), o, o'.
  split; [apply made_compact|]. split; [apply made_compact|].
  split; [exists (jprint (JObj h)); split; [apply b64_rt|now apply json_text_rt]|]. split; [exact E|].
  split; [apply b64_rt|]. split; [apply b64_rt|]. split; [apply b64_rt|]. split; [apply b64_rt|].
  split; [now apply json_text_rt|]. split; [now apply json_text_rt|exact P].
Qed.
Lemma made_alike (good : string -> string -> bool) (h : json) o o' k0 (X : forall m sg, good m sg = true -> exists k, sg = k +:+ m /\ forall m', good m' (k +:+ m') = true) :
  signed_alike good (make_jwt h (body_of o) (toy_signer k0)) (make_jwt h (body_of o') (toy_signer k0)).
Proof.
  intros h1 p1 s1 g1 h2 p2 s2 g2 C1 E1 C2 E2 G.
  destruct (compact_unique _ _ _ _ _ _ _ (made_compact h o (toy_signer k0)) C1) as (<- & <- & <-).
  destruct (compact_unique _ _ _ _ _ _ _ (made_compact h o' (toy_signer k0)) C2) as (<- & <- & <-).
  unfold b64url_decode, b64url_encode in E1, E2. rewrite b64_rt in E1, E2. injection E1 as <-. injection E2 as <-. apply X in G as (k & Ek & G).
  cbn [toy_signer sg_sign] in *. apply sapp_inv_tail in Ek. subst k. apply G.
Qed.
Lemma toy_alike k alg h o o' k0 : signed_alike (toy_sig k alg) (make_jwt h (body_of o) (toy_signer k0)) (make_jwt h (body_of o') (toy_signer k0)).
Proof.
  apply made_alike. intros m sg G. apply String.eqb_eq in G. exists k. split; [exact G|]. intros m'. apply String.eqb_refl.
Qed.
Example c121_did_ex :
  let j o := make_jwt (did_header "ES256" "did:web:v.example#1") (body_of o) (toy_signer "K") in
  let verdict o := rmap (fun a => verify_with_resolver any_header toy_sig toy_resolver did_wallet a (j o) (Some ["did:web:v.example"])) (aro_of_obj simple_parse o) in
  reissued any_header (j did_request) (j (outdated did_request)) /\ (forall k alg, signed_alike (toy_sig k alg) (j did_request) (j (outdated did_request)))
  /\ verdict did_request = Ok (Ok tt) /\ verdict (outdated did_request) = Ok (Ok tt).
Proof.
  split; [|split; [intros; apply toy_alike|split; vm_compute; reflexivity]].
  apply made_reissued; try (vm_compute; reflexivity). apply outdated_same.
Qed.
(** C121: the same of a certificate. *)
Lemma c121_x509_pf : forall (cert_of_der : string -> option cert) (vkey : Type) (from_spki : string -> string -> option vkey)
    (verifies : vkey -> string -> string -> bool) (root : Type) (roots : option (list root)) (ssi_header : obj -> option bool)
    (wm : wallet_metadata) (a a' : aro) (jwt jwt' : string),
    same_request a a' -> reissued ssi_header jwt jwt' -> (forall v, signed_alike (verifies v) jwt jwt') ->
    (x509_hash_validate cert_of_der from_spki verifies wm a jwt roots = Ok tt ->
     x509_hash_validate cert_of_der from_spki verifies wm a' jwt' roots = Ok tt)
    /\ (x509_san_validate cert_of_der from_spki verifies wm a jwt roots = Ok tt ->
        x509_san_validate cert_of_der from_spki verifies wm a' jwt' roots = Ok tt).
Proof.
  intros cod vkey fs vv root roots ssi wm a a' jwt jwt' Q (h64 & h & enc & p64 & p64' & s64 & s64' & sg & sg' & t & t' & o & o' & C & C' & Hh & He & Hs & Hs' & _) G. split; intros H.
  - apply c25_x509_hash_pf in H as (h1 & p1 & s1 & h2 & alg & der & c & cid & v & sg1 & C1 & Hh2 & Ha & Hl & Hf & Hd & Hc & Hn & Hv & Hg & H).
    destruct (compact_unique _ _ _ _ _ _ _ C C1) as (<- & <- & <-). assert (h2 = h) by (eapply header_unique; eassumption). subst h2. assert (sg1 = sg) by congruence. subst sg1.
    apply c25_x509_hash_pf. exists h64, p64', s64', h, alg, der, c, cid, v, sg'. rewrite <- (same_cid _ _ Q). repeat (split; [assumption|]).
    exact (G v _ _ _ _ _ _ _ _ C Hs C' Hs' H).
  - apply c26_x509_san_pf in H as (h1 & p1 & s1 & h2 & alg & der & c & cid & dns & v & sg1 & C1 & Hh2 & Ha & Hl & Hf & Hd & Hc & Hn & Hi & Hv & Hg & H).
    destruct (compact_unique _ _ _ _ _ _ _ C C1) as (<- & <- & <-). assert (h2 = h) by (eapply header_unique; eassumption). subst h2. assert (sg1 = sg) by congruence. subst sg1.
    apply c26_x509_san_pf. exists h64, p64', s64', h, alg, der, c, cid, dns, v, sg'. rewrite <- (same_cid _ _ Q). repeat (split; [assumption|]).
    exact (G v _ _ _ _ _ _ _ _ C Hs C' Hs' H).
Qed.
Example c121_x509_ex :
  let j o := make_jwt (x5c_header "ES256" [b64std_encode "K|v.example"]) (body_of o) (toy_signer "K") in
  let o := x509_request "x509_san_dns:v.example" in
  let verdict o := rmap (fun a => x509_san_validate toy_cert (p256_from_spki Some) toy_verifies did_wallet a (j o) (None : option (list nat))) (aro_of_obj simple_parse o) in
  reissued any_header (j o) (j (outdated o)) /\ (forall k, signed_alike (toy_verifies k) (j o) (j (outdated o)))
  /\ verdict o = Ok (Ok tt) /\ verdict (outdated o) = Ok (Ok tt).
Proof.
  split; [|split; [|split; vm_compute; reflexivity]].
  - apply made_reissued; try (vm_compute; reflexivity). apply outdated_same.
  - intros k. apply made_alike. intros m sg G. apply String.eqb_eq in G. exists k. split; [exact G|]. intros m'. apply String.eqb_refl.
Qed.

(* ------------------------------------------------------------ runs *)
Section Runs.
Variable R : string -> string -> Prop.
Definition similar {A} (S : A -> A -> Prop) (m m' : M wevent A) : Prop :=
  Forall2 (same_event R) (fst m) (fst m') /\ agree S (snd m) (snd m').
Lemma similar_bind {A B} (S : A -> A -> Prop) (T : B -> B -> Prop) m m' f f' :
  similar S m m' -> (forall x y, S x y -> similar T (f x) (f' y)) -> similar T (mbind m f) (mbind m' f').
Proof.
  intros [E A1] F. unfold mbind. destruct (snd m) as [x|e], (snd m') as [y|e']; cbn [agree] in A1; try contradiction.
  - destruct (F x y A1) as [E2 A2]. split; cbn [fst snd]; [now apply Forall2_app|exact A2].
  - split; cbn [fst snd agree]; auto.
Qed.
Lemma similar_bind_ok {A B} (S : A -> A -> Prop) (T : B -> B -> Prop) m m' f f' x :
  snd m = Ok x -> similar S m m' -> (forall y, S x y -> similar T (f x) (f' y)) -> similar T (mbind m f) (mbind m' f').
Proof.
  intros H [E A1] F. unfold mbind. rewrite H in *. destruct (snd m') as [y|e']; cbn [agree] in A1; try contradiction.
  destruct (F y A1) as [E2 A2]. split; cbn [fst snd]; [now apply Forall2_app|exact A2].
Qed.
Lemma similar_lift {A} (S : A -> A -> Prop) r r' : agree S r r' -> similar S (lift r) (lift r').
Proof. intros H. split; [constructor|exact H]. Qed.
Lemma similar_eq {A} (r : res A) : similar eq (lift r) (lift r).
Proof. apply similar_lift. now apply agree_eq. Qed.
Lemma similar_ret {A} (S : A -> A -> Prop) x y : S x y -> similar S (ret x) (ret y).
Proof. intros H. split; [constructor|exact H]. Qed.

Variable ssi : obj -> option bool.
Hypothesis re : forall j j', R j j' -> reissued ssi j j'.
Lemma typ_same j j' b : R j j' -> validate_typ j b = validate_typ j' b.
Proof.
  intros X. apply re in X as (h64 & h & enc & p64 & p64' & s64 & s64' & sg & sg' & t & t' & o & o' & C & C' & _). unfold validate_typ.
  apply split_iff in C, C'. now rewrite C, C'.
Qed.
Lemma decoded ssi' jwt h64 h enc p64 s64 sg t o : compact jwt h64 p64 s64 -> header_text h64 h -> ssi' h = Some enc -> b64url_decode s64 = Some sg ->
  payload_text enc p64 t -> json_of_text t = Some (JObj o) -> decode_unverified ssi' jwt = Ok o.
Proof.
  intros C Hh He Hs Hp Hj. unfold decode_unverified, jws_payload. apply split_iff in C. rewrite C. cbn [rbind]. rewrite Hs. cbn [ok_or rbind].
  apply headers_iff in Hh. rewrite Hh. cbn [rbind]. rewrite He. cbn [ok_or rbind]. unfold payload_text in Hp.
  destruct enc; rewrite Hp; cbn [ok_or rbind]; unfold map_of_text; now rewrite Hj.
Qed.
Lemma decode_same up j j' : R j j' -> agree same_request (decode_aro up ssi j) (decode_aro up ssi j').
Proof.
  intros X. apply re in X as (h64 & h & enc & p64 & p64' & s64 & s64' & sg & sg' & t & t' & o & o' & C & C' & Hh & He & Hs & Hs' & Hp & Hp' & Hj & Hj' & P).
  unfold decode_aro. rewrite (decoded _ _ _ _ _ _ _ _ _ _ C Hh He Hs Hp Hj), (decoded _ _ _ _ _ _ _ _ _ _ C' Hh He Hs' Hp' Hj'). cbn [rbind].
  now apply c121_request_pf.
Qed.

Lemma request_refl a : same_request a a.
Proof.
  repeat split. destruct (obj_get "client_metadata" (ro_inner a)); cbn [both]; [now left|exact I].
Qed.
Lemma typ_same' j j' b : same_jwt R j j' -> validate_typ j b = validate_typ j' b.
Proof. intros [->|X]; [reflexivity|now apply typ_same]. Qed.
Lemma decode_same' up j j' : same_jwt R j j' -> agree same_request (decode_aro up ssi j) (decode_aro up ssi j').
Proof. intros [->|X]; [|now apply decode_same]. destruct (decode_aro up ssi j') as [a|e]; cbn [agree]; [apply request_refl|reflexivity]. Qed.
Definition same_pair (x y : aro * option string) : Prop := same_request (fst x) (fst y) /\ both (same_jwt R) (snd x) (snd y).
Lemma reply_same http http' q : same_reply R (http q) (http' q) ->
  similar (fun x y => rs_status x = rs_status y /\ same_jwt R (rs_body x) (rs_body y) /\ utf8_valid (rs_body x) = utf8_valid (rs_body y)) (send http q) (send http' q).
Proof.
  intros H. apply similar_bind with (S := eq); [split; cbn; [repeat constructor|reflexivity]|]. intros _ _ _. apply similar_lift.
  destruct H as [->|(st & b & b' & -> & -> & X & U & U')]; [destruct (http' q) as [x|e]|]; cbn [agree rs_status rs_body]; [|reflexivity|]; repeat split.
  - now left.
  - now right.
  - congruence.
Qed.
Lemma resolve_same up uri_ok http http' r r' : (forall q, same_reply R (http q) (http' q)) -> same_asked R r r' ->
  similar same_pair (resolve_request up ssi uri_ok http r) (resolve_request up ssi uri_ok http' r').
Proof.
  intros Hh [Ec Ei]. unfold resolve_request. rewrite <- Ec. cbv zeta. set (is := match ar_client_id r with Some c => _ | None => _ end).
  destruct (ar_indirection r) as [j|u|o], (ar_indirection r') as [j'|u'|o']; try contradiction.
  - rewrite <- (typ_same' _ _ is Ei). apply similar_bind with (S := eq); [apply similar_eq|intros _ _ _].
    apply similar_bind with (S := same_request); [apply similar_lift, decode_same'; exact Ei|]. intros a a' Q. apply similar_ret. split; assumption.
  - subst u'. apply similar_bind with (S := eq); [apply similar_eq|intros _ _ _].
    eapply similar_bind; [apply reply_same, Hh|]. cbv beta. intros x y (Es & B & Eu). rewrite <- Es, <- Eu.
    apply similar_bind with (S := eq); [apply similar_eq|intros _ _ _]. apply similar_bind with (S := eq); [apply similar_eq|intros _ _ _].
    rewrite <- (typ_same' _ _ is B). apply similar_bind with (S := eq); [apply similar_eq|intros _ _ _].
    apply similar_bind with (S := same_request); [apply similar_lift, decode_same'; exact B|]. intros a a' Q. apply similar_ret. split; assumption.
  - apply similar_bind with (S := same_request); [apply similar_lift, c121_request_pf|intros a a' Q; apply similar_ret; split; [exact Q|exact I]].
    destruct (ar_client_id r) as [c|]; [|exact Ei]. destruct Ei as [S B]. split.
    + intros k K. unfold uo_put, uo_insert. cbn [p_client_id p_string tp_to infallible fst tp_key]. rewrite !obj_get_insert.
      destruct (String.eqb k "client_id"); [reflexivity|now apply S].
    + unfold uo_put, uo_insert. cbn [p_client_id p_string tp_to infallible fst tp_key]. rewrite !obj_get_insert. exact B.
Qed.
End Runs.

(** C121: a validated request stays valid when the verifier's answers, or the request itself, hold JWTs that differ in the other
    members only and that the wallet's own verification takes alike. The same network traffic is caused. *)
Lemma c121_validate_pf : forall (url_parse : string -> option url) (ssi_header : obj -> option bool) (uri_ok : string -> bool)
    (R : string -> string -> Prop) (w w' : wallet) (r r' : auth_request) (a : aro),
    (forall j j', R j j' -> reissued ssi_header j j') -> same_wallet (w_metadata w) (w_metadata w') ->
    (forall q, same_reply R (w_http w q) (w_http w' q)) -> same_asked R r r' ->
    (forall h b b' j j', same_request b b' -> both (same_jwt R) j j' -> w_hook w h b j = Ok tt -> w_hook w' h b' j' = Ok tt) ->
    snd (validate url_parse ssi_header uri_ok w r) = Ok a ->
    exists a', snd (validate url_parse ssi_header uri_ok w' r') = Ok a' /\ same_request a a'
      /\ Forall2 (same_event R) (fst (validate url_parse ssi_header uri_ok w r)) (fst (validate url_parse ssi_header uri_ok w' r')).
Proof.
  intros up ssi uok R w w' r r' a Re W Hh A Hk H.
  assert (X : similar R same_request (validate up ssi uok w r) (validate up ssi uok w' r')).
  { pose proof (resolve_same R ssi Re up uok (w_http w) (w_http w') r r' Hh A) as Z. unfold validate in *. apply mbind_ok in H as ([b j] & H1 & H). apply mbind_ok in H as ([] & H2 & H).
    apply (similar_bind_ok R (same_pair R) same_request _ _ _ _ (b, j) H1 Z). intros [b' j'] [Q B]. cbn [fst snd] in Q, B.
      apply similar_bind with (S := eq).
      - unfold verify_request in *. rewrite <- (c121_gate_pf _ _ _ _ W Q). apply mbind_ok in H2 as (u & G & H2). cbn [lift snd] in G. rewrite G.
        apply similar_bind with (S := eq); [apply similar_eq|intros _ _ _]. destruct Q as (P & Q1 & Q2 & Q3). rewrite <- Q2.
        destruct (hook_for (ro_scheme b)) as [h|]; [|discriminate]. apply mbind_ok in H2 as ([] & _ & H2). cbn [lift snd] in H2.
        apply similar_bind with (S := eq).
        + split; cbn; [|reflexivity]. repeat constructor; try assumption; apply P || apply Q3.
        + intros _ _ _. apply similar_lift. rewrite H2, (Hk h b b' j j'); [reflexivity| |exact B|exact H2]. repeat split; try assumption; apply P || apply Q3.
      - intros _ _ _. assert (Ec : aro_get p_client_id b = aro_get p_client_id b') by (apply (same_uo _ p_client_id _ _ (proj1 (proj1 Q))); listed).
        rewrite <- Ec. destruct A as [Ea _]. rewrite <- Ea. apply similar_bind with (S := eq); [apply similar_eq|]. intros inner ? <-.
        destruct (ar_client_id r) as [x|], inner as [y|]; try (apply similar_ret; exact Q).
        destruct (String.eqb x y); [apply similar_ret; exact Q|apply similar_lift; reflexivity]. }
  destruct X as [X1 X2]. rewrite H in X2. destruct (snd (validate up ssi uok w' r')) as [a'|e]; [|contradiction]. exists a'. auto.
Qed.
(** A wallet that verifies DIDs as the library does. *)
Definition did_hook (h : hook) (a : aro) (j : option string) : res unit :=
  match h, j with
  | HDid, Some j => verify_with_resolver any_header toy_sig toy_resolver did_wallet a j (Some ["did:web:v.example"])
  | _, _ => Err "refused"
  end.
Definition did_user (http : http_client) : wallet :=
  mk_wallet (mk_wm [("client_id_prefixes_supported", jstrs ["decentralized_identifier"])] (mk_url "openid4vp" None "" true None None) []) http did_hook.
Definition did_jwt (o : obj) : string := make_jwt (did_header "ES256" "did:web:v.example#1") (body_of o) (toy_signer "K").
Example c121_validate_ex :
  let R j j' := j = did_jwt did_request /\ j' = did_jwt (outdated did_request) in
  let w o := did_user (serve 200 (did_jwt o)) in
  let r := mk_ar None (ByReference sample_uri) in
  (forall j j', R j j' -> reissued any_header j j')
  /\ (forall q, same_reply R (w_http (w did_request) q) (w_http (w (outdated did_request)) q)) /\ same_asked R r r
  /\ (forall h b b' j j', same_request b b' -> both (same_jwt R) j j' -> did_hook h b j = Ok tt -> did_hook h b' j' = Ok tt)
  /\ is_ok (snd (validate simple_parse any_header (fun _ => true) (w did_request) r)) = true.
Proof.
  assert (X : reissued any_header (did_jwt did_request) (did_jwt (outdated did_request))) by (unfold did_jwt; apply made_reissued; [vm_compute; reflexivity|vm_compute; reflexivity|vm_compute; reflexivity|vm_compute; reflexivity|vm_compute; reflexivity|vm_compute; reflexivity|reflexivity|apply outdated_same]).
  split; [intros j j' [-> ->]; exact X|]. split.
  { intros q. right. exists 200%N, (did_jwt did_request), (did_jwt (outdated did_request)). split; [reflexivity|]. split; [reflexivity|].
    split; [split; reflexivity|]. split; vm_compute; reflexivity. }
  split; [split; reflexivity|]. split; [|vm_compute; reflexivity].
  intros h b b' j j' Q J. destruct h, j as [j|], j' as [j'|]; cbn [both did_hook] in *; try easy. destruct J as [->|[-> ->]].
  - unfold verify_with_resolver. now rewrite <- (same_cid _ _ Q).
  - intros H. refine (c121_did_pf _ _ _ _ _ b b' _ _ _ Q X _ H). intros k alg. unfold did_jwt. apply toy_alike.
Qed.

(** C121: the example wallet does the same, to the last byte sent, for request objects that differ in the other members. *)
Lemma c121_wallet_pf : forall (url_parse : string -> option url) (ssi_header : obj -> option bool) (uri_ok : string -> bool)
    (jwk_ok : obj -> bool) (jwe_encrypt : obj -> obj -> obj -> res string) (lower sign : string -> string) (now : Z)
    (http http' : http_client) (endpoint : url) (store : list credential) (auto_consent : bool) (p p' : params),
    let asked q := from_url url_parse (build_request_url endpoint q) endpoint in
    let run h q := authorize url_parse ssi_header uri_ok jwk_ok jwe_encrypt lower sign now h endpoint store auto_consent q in
    agree (same_asked (reissued ssi_header)) (asked p) (asked p') -> pa_state p = pa_state p' ->
    (forall q, rq_method q = "GET" -> same_reply (reissued ssi_header) (http q) (http' q)) ->
    (forall q, rq_method q <> "GET" -> http q = http' q) ->
    snd (run http p) = snd (run http' p') /\ http_events (fst (run http p)) = http_events (fst (run http' p')).
Proof.
  intros up ssi uok jwk_ok enc lower sign now http http' ep store consent p p' asked run A Es Hg Hp.
  assert (Hh : forall q, same_reply (reissued ssi) (http q) (http' q)).
  { intros q. destruct (string_dec (rq_method q) "GET") as [E|N]; [now apply Hg|left; now apply Hp]. }
  assert (X : similar (reissued ssi) eq (run http p) (run http' p')).
  { unfold run, authorize. apply similar_bind with (S := same_asked (reissued ssi)); [apply similar_lift; exact A|]. intros ar ar' Ar.
    apply similar_bind with (S := same_pair (reissued ssi)); [apply resolve_same; auto|]. intros [a j] [a' j'] [Q _]. cbn [fst] in Q.
    destruct (c121_answer_pf _ _ Q) as (Ed & Est & Ee). rewrite <- Ed, <- Est, <- Es.
    assert (Ep : process_request lower store consent a = process_request lower store consent a') by (unfold process_request; now rewrite <- Ed).
    assert (Ej : forall vp st, encrypted_answer jwk_ok enc a vp st = encrypted_answer jwk_ok enc a' vp st).
    { intros vp st. pose proof (same_cm _ _ Q) as C. unfold encrypted_answer, verifier_key, aro_client_metadata. apply agree_eq. eapply agree_bind with (R := eq); [|intros ? ? <-; now apply agree_eq].
      eapply agree_bind with (R := same_at client_members).
      { destruct (aro_get p_client_metadata a), (aro_get p_client_metadata a'); cbn [both] in C; try easy; try exact C; now cbn. }
      intros cm cm' Cm. unfold cm_jwks. rewrite <- (same_uo _ p_jwks _ _ Cm ltac:(listed)). now apply agree_eq. }
    destruct Q as (P & Q1 & Q2 & Q3 & Q4 & Q5 & Q6). unfold redirect_uri_bound. rewrite <- Ep, <- Q1, <- Q3, <- Q5, <- Q6.
    apply similar_bind with (S := eq); [apply similar_eq|intros _ _ _]. apply similar_bind with (S := eq); [apply similar_eq|intros sel ? <-].
    apply similar_bind with (S := eq); [apply similar_eq|intros _ _ _]. cbv zeta.
    assert (D : forall u b, similar (reissued ssi) eq (deliver up http u b) (deliver up http' u b)).
    { intros u b. unfold deliver, send. rewrite (Hp (plain_post u b)) by discriminate.
      apply similar_bind with (S := eq); [|intros x ? <-].
      - apply similar_bind with (S := eq); [split; cbn; [repeat constructor|reflexivity]|intros _ _ _; apply similar_eq].
      - apply similar_bind with (S := eq); [apply similar_eq|intros _ _ _].
        match goal with |- context [match ?m with Some r => _ | None => ret None end] => destruct m as [s|]; [|now apply similar_ret] end.
        destruct (up s) as [u'|]; [|now apply similar_ret]. apply similar_bind with (S := eq); [split; cbn; [repeat constructor|reflexivity]|intros _ _ _; now apply similar_ret]. }
    destruct (ro_mode a) as [| | | |m]; try apply similar_eq; [apply D|]. rewrite <- Ej. apply similar_bind with (S := eq); [apply similar_eq|intros jwe ? <-; apply D]. }
  destruct X as [X1 X2]. apply agree_eq in X2. split; [exact X2|]. induction X1 as [|e e' l l' E F IH]; [reflexivity|].
  destruct e as [q|h a j], e' as [q'|h' a' j']; cbn [same_event] in E; try contradiction; [|exact IH]. subst q'. unfold http_events in *. cbn [flat_map app]. now rewrite IH.
Qed.
Example c121_wallet_ex :
  let q := ex_object "x509_san_dns:v.example" in
  agree (same_asked (reissued any_header)) (from_url simple_parse (build_request_url ex_endpoint (ex_params None q)) ex_endpoint)
    (from_url simple_parse (build_request_url ex_endpoint (ex_params None (outdated q))) ex_endpoint)
  /\ ex_posted None q = ["https://v.example/resp"] /\ ex_posted None (outdated q) = ["https://v.example/resp"].
Proof.
  cbv zeta. split; [|split; vm_compute; reflexivity].
  assert (E : forall o, In o [ex_object "x509_san_dns:v.example"; outdated (ex_object "x509_san_dns:v.example")] ->
    from_url simple_parse (build_request_url ex_endpoint (ex_params None o)) ex_endpoint = Ok (mk_ar None (ByValue (jwt_of typ_ok o)))).
  { intros o [<-|[<-|[]]]; vm_compute; reflexivity. }
  rewrite !E by (cbn; auto). split; [reflexivity|]. right. apply made_reissued; try (vm_compute; reflexivity). apply outdated_same.
Qed.

(** C121: so it does not hold that a wallet refuses a request that is out of date or meant for somebody else: one with trusted
    signer, expired in 1970, for another audience, is validated by the library's own DID verification. *)
Lemma c121_expired_refuted_pf : exists (jwt : string) (a : aro),
  snd (validate simple_parse any_header (fun _ => true) (did_user (serve 404 "")) (mk_ar None (ByValue jwt))) = Ok a
  /\ obj_get "exp" (ro_inner a) = Some (JInt 1) /\ text_at "aud" (ro_inner a) "https://other-wallet.example".
Proof.
  exists (did_jwt (outdated did_request)).
  assert (X : is_ok (snd (validate simple_parse any_header (fun _ => true) (did_user (serve 404 "")) (mk_ar None (ByValue (did_jwt (outdated did_request)))))) = true)
    by (vm_compute; reflexivity).
  destruct (snd (validate simple_parse any_header (fun _ => true) (did_user (serve 404 "")) (mk_ar None (ByValue (did_jwt (outdated did_request)))))) as [a|e] eqn:E; [|discriminate X].
  exists a. split; [reflexivity|].
  assert (Y : option_map (fun a => (obj_get "exp" (ro_inner a), obj_get "aud" (ro_inner a)))
            (match snd (validate simple_parse any_header (fun _ => true) (did_user (serve 404 "")) (mk_ar None (ByValue (did_jwt (outdated did_request))))) with Ok a => Some a | Err _ => None end)
            = Some (Some (JInt 1), Some (JStr "https://other-wallet.example"))) by (vm_compute; reflexivity).
  rewrite E in Y. cbn [option_map] in Y. injection Y as Y1 Y2. split; assumption.
Qed.
