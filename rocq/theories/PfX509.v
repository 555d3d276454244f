From Coq Require Import Lia.
From Verif Require Import Base BaseFacts Utf8 Utf8Facts Json JsonFacts JsonText JsonTextFacts Serde MapFacts Base64 Base64Facts Sha256 Url Object
  Formats Params Metadata Effects Jwt Request Verify Did X509 SpecCert CertFacts Client Spec SpecObject SpecRequest SpecVerify ParamFacts PfText PfRequest PfResolve PfVerify PfDid.

Lemma trim_end_spec c s : exists p, s = trim_end c s +:+ p /\ str_all (Ascii.eqb c) p = true.
Proof.
  induction s as [|d s (p & E & A)]; [exists ""; auto|]. cbn [trim_end]. destruct (trim_end c s) as [|x r] eqn:T.
  - destruct (Ascii.eqb c d) eqn:D.
    + exists (String d s). split; [reflexivity|]. cbn. rewrite D. cbn in E. subst p. exact A.
    + exists s. split; [reflexivity|]. cbn in E. now subst p.
  - exists p. split; [|exact A]. cbn in E |- *. now rewrite E.
Qed.
Lemma all_equals p : str_all (Ascii.eqb "=") p = true <-> exists n, p = equals_signs n.
Proof.
  split.
  - induction p as [|c p IH]; [exists 0; reflexivity|]. cbn [str_all]. intros H. apply andb_prop in H as [H1 H2].
    apply Ascii.eqb_eq in H1. destruct (IH H2) as [n ->]. exists (S n). cbn. now rewrite <- H1.
  - intros [n ->]. induction n; cbn [equals_signs str_all]; [reflexivity|exact IHn].
Qed.
Lemma der_iff b der : b64std_nopad_decode (trim_end "=" b) = Some der <-> exists n, b = b64_encode Std false der +:+ equals_signs n.
Proof.
  split.
  - intros H. apply b64_canonical in H. destruct (trim_end_spec "=" b) as (p & E & A). apply all_equals in A as [n ->].
    exists n. now rewrite <- H.
  - intros [n ->]. rewrite trim_end_app_pad.
    + apply b64_rt.
    + apply (has_char_all _ (b64_char Std)); [reflexivity|apply b64_encode_chars].
    + apply all_equals. eauto.
Qed.

Section X.
Variable cert_of_der : string -> option cert.

Lemma leaf_iff wm jwt h64 p64 s64 alg der c :
  leaf cert_of_der wm jwt = Ok (h64, p64, s64, alg, der, c)
  <-> exists h, compact jwt h64 p64 s64 /\ header_text h64 h /\ text_at "alg" h alg /\ alg_supported wm alg
      /\ first_certificate h der /\ cert_of_der der = Some c.
Proof.
  unfold leaf. split.
  - intros H. apply rbind_ok in H as ([[h64' p64'] s64'] & Hs & H). apply split_iff in Hs.
    apply rbind_ok in H as (h & Hh & H). apply headers_iff in Hh. apply rbind_ok in H as (alg' & Ha & H). apply hstr_iff in Ha.
    apply rbind_ok in H as (algs & Hl & H). apply rbind_ok in H as (u & Hm & H). apply of_bool_ok in Hm.
    apply rbind_ok in H as (x5c & Hx & H). apply ok_or_ok in Hx. apply rbind_ok in H as (chain & Hc & H). apply ok_or_ok in Hc.
    apply rbind_ok in H as (first & Hf & H). apply ok_or_ok in Hf. apply rbind_ok in H as (b & Hb & H). apply ok_or_ok in Hb.
    apply rbind_ok in H as (der' & Hd & H). apply ok_or_ok in Hd. apply rbind_ok in H as (c' & Hcd & H). apply ok_or_ok in Hcd.
    injection H as -> -> -> -> -> ->. exists h. repeat (split; [assumption|]).
    split; [apply algs_iff; eauto|]. split; [|exact Hcd]. apply der_iff in Hd as [n Hd].
    destruct x5c; try discriminate. injection Hc as ->. destruct chain as [|y rest]; [discriminate|]. injection Hf as ->.
    destruct first; try discriminate. injection Hb as ->. exists n, rest. now rewrite <- Hd.
  - intros (h & Hs & Hh & Ha & Hl & (n & rest & Hx) & Hc).
    apply split_iff in Hs. rewrite Hs. cbn [rbind]. apply headers_iff in Hh. rewrite Hh. cbn [rbind].
    apply hstr_iff in Ha. rewrite Ha. cbn [rbind]. apply algs_iff in Hl as (l & Hl & Hm). rewrite Hl. cbn [rbind]. rewrite Hm. cbn [of_bool rbind].
    rewrite Hx. cbn [ok_or rbind as_arr nth_error as_str].
    rewrite (proj2 (der_iff _ der)) by eauto. cbn [ok_or rbind]. now rewrite Hc.
Qed.

Context {vkey : Type}.
Variable from_spki : string -> string -> option vkey.
Variable vverify : vkey -> string -> string -> bool.
Lemma signature_iff h64 p64 s64 alg c : check_signature from_spki vverify h64 p64 s64 alg c = Ok tt <->
  exists v sg, from_spki (c_spki c) alg = Some v /\ b64url_decode s64 = Some sg /\ vverify v (h64 +:+ "." +:+ p64) sg = true.
Proof.
  unfold check_signature. rewrite rbind_iff. split.
  - intros (v & Hv & H). apply rbind_ok in H as (sg & Hg & H). apply ok_or_ok in Hv, Hg. apply of_bool_ok in H. eauto.
  - intros (v & sg & Hv & Hg & H). exists v. rewrite Hv, Hg. cbn [ok_or rbind]. now rewrite H.
Qed.
End X.

(** C25: x509_hash validation accepts exactly when the client identifier names the base64url SHA-256 hash of the
    first certificate in the JWT's x5c header, the alg is one the wallet lists, and the signature over header and
    payload is valid under that certificate's key. The trusted roots play no part. *)
Lemma c25_x509_hash_pf :
  forall (cert_of_der : string -> option cert) (vkey : Type) (from_spki : string -> string -> option vkey)
    (verifies : vkey -> string -> string -> bool) (root : Type) (roots : option (list root))
    (wm : wallet_metadata) (a : aro) (jwt : string),
    x509_hash_validate cert_of_der from_spki verifies wm a jwt roots = Ok tt
    <-> exists h64 p64 s64 h alg der c client_id v sg,
          compact jwt h64 p64 s64 /\ header_text h64 h /\ text_at "alg" h alg /\ alg_supported wm alg
          /\ first_certificate h der /\ cert_of_der der = Some c
          /\ ro_client_id a = Some client_id /\ names "x509_hash" client_id (b64url_encode (sha256 der))
          /\ from_spki (c_spki c) alg = Some v
          /\ b64url_decode s64 = Some sg /\ verifies v (h64 +:+ "." +:+ p64) sg = true.
Proof.
  intros cod vkey fs vv root roots wm a jwt. unfold x509_hash_validate. split.
  - intros H. apply rbind_ok in H as (cid & Hc & H). apply ok_or_ok in Hc. cbv zeta in H.
    apply rbind_ok in H as ([[[[[h64 p64] s64] alg] der] c] & Hl & H). apply leaf_iff in Hl as (h & Hs & Hh & Ha & Hal & Hf & Hcd).
    apply rbind_ok in H as (u & He & H). apply of_bool_ok, String.eqb_eq in He. symmetry in He. apply names_iff in He.
    apply signature_iff in H as (v & sg & Hv & Hg & H).
    exists h64, p64, s64, h, alg, der, c, cid, v, sg. repeat (split; [assumption|]). assumption.
  - intros (h64 & p64 & s64 & h & alg & der & c & cid & v & sg & Hs & Hh & Ha & Hal & Hf & Hcd & Hc & Hn & Hv & Hg & H).
    rewrite Hc. cbn [ok_or rbind]. cbv zeta.
    rewrite (proj2 (leaf_iff cod wm jwt h64 p64 s64 alg der c)) by eauto 8. cbn [rbind].
    apply names_iff in Hn. unfold strip_scheme. change X509_HASH with "x509_hash". rewrite Hn, String.eqb_refl. cbn [of_bool rbind].
    apply signature_iff. eauto.
Qed.

(** A toy certificate: the DER text is "key|dns". *)
Definition toy_cert (der : string) : option cert :=
  match split_once "|" der with Some (k, d) => Some (named ["other.example"; d] k) | None => None end.
Definition toy_der (c : cert) : res string := ok_or (match nth_error (c_dns c) 1 with Some d => Some (c_spki c +:+ "|" +:+ d) | None => None end) "der".
Definition toy_verifies (k m sg : string) : bool := String.eqb sg (k +:+ m).
Definition x509_request (client_id : string) : obj := obj_insert "client_id" (JStr client_id) sample_request.
Definition hash_verdict (client_id signer_key : string) (h : json) : res unit :=
  let? a := aro_of_obj simple_parse (x509_request client_id) in
  x509_hash_validate toy_cert (p256_from_spki Some) toy_verifies did_wallet a (make_jwt h a (toy_signer signer_key)) (None : option (list nat)).
Definition toy_hash_id : string := "x509_hash:" +:+ b64url_encode (sha256 "K|v.example").
Example c25_x509_hash_ex :
  hash_verdict toy_hash_id "K" (x5c_header "ES256" [b64std_encode "K|v.example"]) = Ok tt
  /\ hash_verdict toy_hash_id "X" (x5c_header "ES256" [b64std_encode "K|v.example"]) = Err "signature could not be verified"
  /\ hash_verdict toy_hash_id "X" (x5c_header "ES256" [b64std_encode "X|v.example"; b64std_encode "K|v.example"]) = Err "hash mismatch"
  /\ hash_verdict toy_hash_id "K" (x5c_header "none" [b64std_encode "K|v.example"]) = Err "unable to parse SPKI".
Proof. repeat split; vm_compute; reflexivity. Qed.

(** C26: x509_san_dns validation accepts exactly when the client identifier names one of the DNS names of the
    first certificate in the JWT's x5c header, the alg is one the wallet lists, and the signature over header and
    payload is valid under that certificate's key. The trusted roots play no part. *)
Lemma c26_x509_san_pf :
  forall (cert_of_der : string -> option cert) (vkey : Type) (from_spki : string -> string -> option vkey)
    (verifies : vkey -> string -> string -> bool) (root : Type) (roots : option (list root))
    (wm : wallet_metadata) (a : aro) (jwt : string),
    x509_san_validate cert_of_der from_spki verifies wm a jwt roots = Ok tt
    <-> exists h64 p64 s64 h alg der c client_id dns v sg,
          compact jwt h64 p64 s64 /\ header_text h64 h /\ text_at "alg" h alg /\ alg_supported wm alg
          /\ first_certificate h der /\ cert_of_der der = Some c
          /\ ro_client_id a = Some client_id /\ names "x509_san_dns" client_id dns /\ certified c dns
          /\ from_spki (c_spki c) alg = Some v
          /\ b64url_decode s64 = Some sg /\ verifies v (h64 +:+ "." +:+ p64) sg = true.
Proof.
  intros cod vkey fs vv root roots wm a jwt. unfold x509_san_validate. split.
  - intros H. apply rbind_ok in H as (cid & Hc & H). apply ok_or_ok in Hc. cbv zeta in H.
    apply rbind_ok in H as ([[[[[h64 p64] s64] alg] der] c] & Hl & H). apply leaf_iff in Hl as (h & Hs & Hh & Ha & Hal & Hf & Hcd).
    apply rbind_ok in H as (u & He & H). apply of_bool_ok, mem_str_iff, certified_iff in He.
    apply signature_iff in H as (v & sg & Hv & Hg & H).
    exists h64, p64, s64, h, alg, der, c, cid, (strip_scheme X509_SAN_DNS cid), v, sg. repeat (split; [assumption|]).
    split; [now apply names_iff|]. repeat (split; [assumption|]). assumption.
  - intros (h64 & p64 & s64 & h & alg & der & c & cid & dns & v & sg & Hs & Hh & Ha & Hal & Hf & Hcd & Hc & Hn & Hi & Hv & Hg & H).
    rewrite Hc. cbn [ok_or rbind]. cbv zeta.
    rewrite (proj2 (leaf_iff cod wm jwt h64 p64 s64 alg der c)) by eauto 8. cbn [rbind].
    apply names_iff in Hn. unfold strip_scheme. change X509_SAN_DNS with "x509_san_dns". rewrite Hn.
    apply certified_iff, mem_str_iff in Hi. rewrite Hi. cbn [of_bool rbind]. apply signature_iff. eauto.
Qed.

Definition san_verdict (client_id signer_key : string) (h : json) : res unit :=
  let? a := aro_of_obj simple_parse (x509_request client_id) in
  x509_san_validate toy_cert (p256_from_spki Some) toy_verifies did_wallet a (make_jwt h a (toy_signer signer_key)) (None : option (list nat)).
Example c26_x509_san_ex :
  san_verdict "x509_san_dns:v.example" "K" (x5c_header "ES256" [b64std_encode "K|v.example"]) = Ok tt
  /\ san_verdict "x509_san_dns:v.example" "X" (x5c_header "ES256" [b64std_encode "K|v.example"]) = Err "signature could not be verified"
  /\ san_verdict "x509_san_dns:v.example" "X" (x5c_header "ES256" [b64std_encode "X|x.example"; b64std_encode "K|v.example"]) = Err "no DNS SAN matches"
  /\ san_verdict "x509_san_dns:V.example" "K" (x5c_header "ES256" [b64std_encode "K|v.example"]) = Err "no DNS SAN matches".
Proof. repeat split; vm_compute; reflexivity. Qed.

(** C25, C26: the verdict of both functions is the same for every list of trusted roots, including none. *)
Lemma c25_roots_pf :
  forall (cert_of_der : string -> option cert) (vkey : Type) (from_spki : string -> string -> option vkey)
    (verifies : vkey -> string -> string -> bool) (root : Type) (roots roots' : option (list root))
    (wm : wallet_metadata) (a : aro) (jwt : string),
    x509_hash_validate cert_of_der from_spki verifies wm a jwt roots = x509_hash_validate cert_of_der from_spki verifies wm a jwt roots'
    /\ x509_san_validate cert_of_der from_spki verifies wm a jwt roots = x509_san_validate cert_of_der from_spki verifies wm a jwt roots'.
Proof. intros. split; reflexivity. Qed.

(** C25, C26: with the P-256 verifier only ES256 requests are accepted. *)
Lemma c25_p256_pf :
  forall (cert_of_der : string -> option cert) (vkey : Type) (spki_key : string -> option vkey)
    (verifies : vkey -> string -> string -> bool) (root : Type) (roots : option (list root))
    (wm : wallet_metadata) (a : aro) (jwt : string),
    x509_hash_validate cert_of_der (p256_from_spki spki_key) verifies wm a jwt roots = Ok tt
    \/ x509_san_validate cert_of_der (p256_from_spki spki_key) verifies wm a jwt roots = Ok tt ->
    exists h, protected_header jwt h /\ text_at "alg" h "ES256".
Proof.
  assert (X : forall jwt h64 p64 s64 h, compact jwt h64 p64 s64 -> header_text h64 h -> protected_header jwt h).
  { intros jwt h64 p64 s64 h (-> & N & _) (t & D & J). exists h64, (p64 +:+ "." +:+ s64), t. auto. }
  assert (Y : forall (vkey : Type) (k : string -> option vkey) s alg v, p256_from_spki k s alg = Some v -> alg = "ES256").
  { intros vkey k s alg v. unfold p256_from_spki. destruct (String.eqb_spec alg "ES256"); [auto|discriminate]. }
  intros cod vkey sk vv root roots wm a jwt [H|H].
  - apply c25_x509_hash_pf in H as (h64 & p64 & s64 & h & alg & der & c & cid & v & sg & Hs & Hh & Ha & Hal & Hf & Hcd & Hc & Hn & Hv & Hg & H).
    apply Y in Hv. subst alg. eauto.
  - apply c26_x509_san_pf in H as (h64 & p64 & s64 & h & alg & der & c & cid & dns & v & sg & Hs & Hh & Ha & Hal & Hf & Hcd & Hc & Hn & Hi & Hv & Hg & H).
    apply Y in Hv. subst alg. eauto.
Qed.

Example c25_p256_ex :
  hash_verdict toy_hash_id "K" (x5c_header "ES256" [b64std_encode "K|v.example"]) = Ok tt.
Proof. vm_compute. reflexivity. Qed.
