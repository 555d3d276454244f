From Coq Require Import Lia.
From Verif Require Import Base BaseFacts Utf8 Utf8Facts Json JsonFacts JsonText JsonTextFacts Serde MapFacts Base64 Base64Facts Sha256 Url Object
  Formats Params Metadata Effects Jwt Request Verify Did X509 SpecCert CertFacts Client Spec SpecObject SpecRequest SpecVerify ParamFacts PfText PfRequest PfResolve PfVerify PfDid PfX509.

Lemma made_jwt {key} h body (s : signer key) : jwf (JObj h) = true -> jdepth (JObj h) <= 127 ->
  exists h64 p64 s64, compact (make_jwt (JObj h) body s) h64 p64 s64 /\ header_text h64 h
    /\ b64url_decode p64 = Some (jprint (aro_to_json body))
    /\ b64url_decode s64 = Some (sg_sign s (h64 +:+ "." +:+ p64)).
Proof.
  intros W D. unfold make_jwt. exists (b64url_encode (jprint (JObj h))), (b64url_encode (jprint (aro_to_json body))).
  eexists. split; [split; [reflexivity|]; split; apply b64url_no_dot|]. split.
  - exists (jprint (JObj h)). split; [apply b64_rt|now apply json_text_rt].
  - split; apply b64_rt.
Qed.
Lemma did_header_ok alg vm : utf8_valid alg = true -> utf8_valid vm = true ->
  jwf (did_header alg vm) = true /\ jdepth (did_header alg vm) <= 127.
Proof. intros A V. split; [unfold jwf; cbn; now rewrite A, V|cbn; lia]. Qed.
Lemma char_ascii al : forallb (fun c => implb (b64_char al c) (is_ascii c)) all_ascii = true.
Proof. destruct al; vm_compute; reflexivity. Qed.
Lemma b64_utf8 al p s : utf8_valid (b64_encode al p s) = true.
Proof.
  apply utf8_ascii. assert (H : str_all is_ascii (b64_encode al false s) = true).
  { eapply str_all_impl; [|apply b64_encode_chars]. intros c Hc.
    assert (X := proj1 (forallb_forall _ _) (char_ascii al) c (all_ascii_in c)). cbn beta in X. now rewrite Hc in X. }
  destruct p; [|exact H]. destruct (b64_pad_suffix al s) as (q & -> & Hq). rewrite str_all_app, H. cbn [andb].
  eapply str_all_impl; [|exact Hq]. intros c Hc. apply Ascii.eqb_eq in Hc. now subst c.
Qed.
Lemma x5c_header_ok alg ders : utf8_valid alg = true ->
  jwf (x5c_header alg (map b64std_encode ders)) = true /\ jdepth (x5c_header alg (map b64std_encode ders)) <= 127.
Proof.
  intros A. split.
  - unfold jwf. assert (T : forallb jtext_ok (map JStr (map b64std_encode ders)) = true /\ forallb jsorted (map JStr (map b64std_encode ders)) = true).
    { split; apply forallb_forall; intros x Hx; apply in_map_iff in Hx as (y & <- & Hy); [|reflexivity].
      apply in_map_iff in Hy as (d & <- & _). apply b64_utf8. }
    destruct T as [T1 T2]. cbn. cbn in T1, T2. rewrite A, T1, T2. reflexivity.
  - assert (T : fold_right Nat.max 0 (map jdepth (map JStr (map b64std_encode ders))) = 0) by (induction ders; cbn; auto).
    cbn. cbn in T. rewrite T. lia.
Qed.

Lemma names_prefixed prefix rest name : names prefix (prefix +:+ ":" +:+ rest) name -> name = rest.
Proof.
  intros [H|[_ N]]; [|exfalso; eauto]. apply sapp_inv_head in H. cbn in H. now injection H as ->.
Qed.

(** C27: a request object signed by the DID client is accepted by DID verification with the same resolver, for a
    wallet that supports the algorithm and trusts the DID, if signatures made with the signer's key verify. *)
Lemma c27_did_pf :
  forall (key : Type) (ssi_header : obj -> option bool) (sig_ok : key -> string -> string -> string -> bool)
    (key_eqb : key -> key -> bool) (resolver : string -> res key) (s : signer key) (did fragment alg : string)
    (c : client) (body a : aro) (jwt : string) (wm : wallet_metadata) (trusted : option (list string)),
    (forall k k', key_eqb k k' = true -> k = k') ->
    (forall k m, sg_jwk s = Ok k -> sig_ok k alg m (sg_sign s m) = true) ->
    has_char "#" did = false -> has_char "#" fragment = false ->
    utf8_valid (did +:+ "#" +:+ fragment) = true -> utf8_valid alg = true ->
    did_client key_eqb resolver (did +:+ "#" +:+ fragment) s = Ok c ->
    sg_alg s = Ok alg -> alg_supported wm alg -> (forall l, trusted = Some l -> In did l) ->
    (forall h, did_header alg (did +:+ "#" +:+ fragment) = JObj h -> ssi_header h = Some true) ->
    jwf (aro_to_json body) = true -> jdepth (aro_to_json body) <= 127 ->
    cl_jwt c body = Ok jwt -> ro_client_id a = Some (cl_client_id c) ->
    verify_with_resolver ssi_header sig_ok resolver wm a jwt trusted = Ok tt.
Proof.
  intros key ssi sig_ok key_eqb resolver s did fragment alg c body a jwt wm trusted Heq Hsig Hd Hf Hu Hua Hc Ha Hal Ht Hssi Wb Db Hj Hid.
  unfold did_client in Hc. apply rbind_ok in Hc as ([id f] & Hr & Hc). apply ok_or_ok in Hr.
  assert (X : rsplit_once "#" (did +:+ "#" +:+ fragment) = Some (did, fragment)) by (apply rsplit_once_some; auto).
  rewrite X in Hr. injection Hr as <- <-. clear X.
  apply rbind_ok in Hc as (jwk & Hk & Hc). apply context_ok in Hk. apply rbind_ok in Hc as (own & Ho & Hc). apply context_ok in Ho.
  apply rbind_ok in Hc as (u & He & Hc). apply of_bool_ok, Heq in He. subst own. injection Hc as <-. cbn [cl_jwt cl_client_id] in Hj, Hid.
  rewrite Ha in Hj. cbn [rbind] in Hj. injection Hj as <-.
  destruct (did_header_ok alg (did +:+ "#" +:+ fragment) Hua Hu) as [W D].
  destruct (made_jwt _ body s W D) as (h64 & p64 & s64 & Hs & Hh & Hp & Hg).
  apply c23_did_pf. exists h64, p64, s64. eexists. exists alg. split; [exact Hs|]. split; [exact Hh|]. split; [reflexivity|]. split; [exact Hal|].
  destruct (has_sub "none" alg) eqn:N; [left; now apply sub_iff|right]. split; [rewrite <- sub_iff; congruence|].
  exists (did +:+ "#" +:+ fragment), did, fragment, (DECENTRALIZED_IDENTIFIER +:+ ":" +:+ did), jwk, true, (jprint (aro_to_json body)), (aro_to_json body).
  eexists. split; [reflexivity|]. split; [reflexivity|]. split; [exact Hd|]. split; [exact Hid|]. split; [now left|]. split; [exact Ht|].
  split; [exact Hk|]. split; [exact Hg|]. split; [now apply Hsig|]. split; [now apply Hssi|]. split; [exact Hp|]. now apply json_text_rt.
Qed.

(** Build the client, sign the request object with its identifier, verify. *)
Definition roundtrip (c : res client) (verify : aro -> string -> res unit) : res unit :=
  let? c := c in
  let? a := aro_of_obj simple_parse (x509_request (cl_client_id c)) in
  let? jwt := cl_jwt c a in verify a jwt.
Example c27_did_ex :
  roundtrip (did_client String.eqb toy_resolver ("did:web:v.example" +:+ "#" +:+ "1") (toy_signer "K"))
    (fun a jwt => verify_with_resolver any_header toy_sig toy_resolver did_wallet a jwt (Some ["did:web:v.example"])) = Ok tt.
Proof. vm_compute. reflexivity. Qed.

(** C27: the same for the x509_hash client; the certificate decodes to what was encoded and its key verifies
    what the signer signs. *)
Lemma c27_x509_hash_pf :
  forall (key vkey root : Type) (cert_of_der : string -> option cert) (to_der : cert -> res string)
    (from_spki : string -> string -> option vkey) (verifies : vkey -> string -> string -> bool)
    (s : signer key) (leaf : cert) (rest : list cert) (alg : string) (v : vkey)
    (c : client) (body a : aro) (jwt : string) (wm : wallet_metadata) (roots : option (list root)),
    (forall x der, to_der x = Ok der -> cert_of_der der = Some x) ->
    from_spki (c_spki leaf) alg = Some v -> (forall m, verifies v m (sg_sign s m) = true) ->
    x509_hash_client to_der (leaf :: rest) s = Ok c ->
    sg_alg s = Ok alg -> utf8_valid alg = true -> alg_supported wm alg ->
    cl_jwt c body = Ok jwt -> ro_client_id a = Some (cl_client_id c) ->
    x509_hash_validate cert_of_der from_spki verifies wm a jwt roots = Ok tt.
Proof.
  intros key vkey root cod to_der fs vv s leaf rest alg v c body a jwt wm roots Hrt Hv Hsig Hc Ha Hua Hal Hj Hid.
  cbn [x509_hash_client] in Hc. apply rbind_ok in Hc as (der & Hd & Hc). injection Hc as <-. cbn [cl_jwt cl_client_id] in Hj, Hid.
  unfold x509_jwt in Hj. rewrite Ha in Hj. cbn [rbind mapM] in Hj. rewrite Hd in Hj. cbn [rbind] in Hj.
  apply rbind_ok in Hj as (ders & Hm & Hj). apply rbind_ok in Hm as (t & _ & Hm). injection Hm as <-. injection Hj as <-.
  destruct (x5c_header_ok alg (der :: t) Hua) as [W D].
  destruct (made_jwt _ body s W D) as (h64 & p64 & s64 & Hs & Hh & Hp & Hg).
  apply c25_x509_hash_pf. exists h64, p64, s64. eexists. exists alg, der, leaf, (X509_HASH +:+ ":" +:+ b64url_encode (sha256 der)), v. eexists.
  split; [exact Hs|]. split; [exact Hh|]. split; [reflexivity|]. split; [exact Hal|].
  split.
  { destruct (b64_pad_suffix Std der) as (q & Eq & Hq). apply all_equals in Hq as [n ->]. exists n. eexists. cbn [obj_get String.eqb Ascii.eqb Bool.eqb map]. unfold b64std_encode at 1.
    rewrite Eq. reflexivity. }
  split; [now apply Hrt|]. split; [exact Hid|]. split; [now left|]. split; [exact Hv|]. split; [exact Hg|]. apply Hsig.
Qed.

Definition toy_chain : list cert := [named ["other.example"; "v.example"] "K"].
Example c27_x509_hash_ex :
  roundtrip (x509_hash_client toy_der toy_chain (toy_signer "K"))
    (fun a jwt => x509_hash_validate toy_cert (p256_from_spki Some) toy_verifies did_wallet a jwt (None : option (list nat))) = Ok tt.
Proof. vm_compute. reflexivity. Qed.

(** C27: the same for the x509_san_dns client. *)
Lemma c27_x509_san_pf :
  forall (key vkey root : Type) (cert_of_der : string -> option cert) (to_der : cert -> res string)
    (from_spki : string -> string -> option vkey) (verifies : vkey -> string -> string -> bool)
    (s : signer key) (leaf : cert) (rest : list cert) (alg : string) (v : vkey)
    (c : client) (body a : aro) (jwt : string) (wm : wallet_metadata) (roots : option (list root)),
    (forall x der, to_der x = Ok der -> cert_of_der der = Some x) ->
    from_spki (c_spki leaf) alg = Some v -> (forall m, verifies v m (sg_sign s m) = true) ->
    x509_san_client to_der (leaf :: rest) s = Ok c ->
    sg_alg s = Ok alg -> utf8_valid alg = true -> alg_supported wm alg ->
    cl_jwt c body = Ok jwt -> ro_client_id a = Some (cl_client_id c) ->
    x509_san_validate cert_of_der from_spki verifies wm a jwt roots = Ok tt.
Proof.
  intros key vkey root cod to_der fs vv s leaf rest alg v c body a jwt wm roots Hrt Hv Hsig Hc Ha Hua Hal Hj Hid.
  cbn [x509_san_client] in Hc. apply rbind_ok in Hc as (san & Hn & Hc). apply ok_or_ok in Hn. injection Hc as <-. cbn [cl_jwt cl_client_id] in Hj, Hid.
  unfold x509_jwt in Hj. rewrite Ha in Hj. cbn [rbind] in Hj.
  apply rbind_ok in Hj as (ders & Hm & Hj). cbn [mapM] in Hm. apply rbind_ok in Hm as (der & Hd & Hm). apply rbind_ok in Hm as (t & _ & Hm). injection Hm as <-. injection Hj as <-.
  destruct (x5c_header_ok alg (der :: t) Hua) as [W D].
  destruct (made_jwt _ body s W D) as (h64 & p64 & s64 & Hs & Hh & Hp & Hg).
  apply c26_x509_san_pf. exists h64, p64, s64. eexists. exists alg, der, leaf, (X509_SAN_DNS +:+ ":" +:+ san), san, v. eexists.
  split; [exact Hs|]. split; [exact Hh|]. split; [reflexivity|]. split; [exact Hal|].
  split.
  { destruct (b64_pad_suffix Std der) as (q & Eq & Hq). apply all_equals in Hq as [n ->]. exists n. eexists. cbn [obj_get String.eqb Ascii.eqb Bool.eqb map]. unfold b64std_encode at 1.
    rewrite Eq. reflexivity. }
  split; [now apply Hrt|]. split; [exact Hid|]. split; [now left|].
  split; [apply certified_iff; now apply nth_error_In in Hn|]. split; [exact Hv|]. split; [exact Hg|]. apply Hsig.
Qed.

Example c27_x509_san_ex :
  roundtrip (x509_san_client toy_der toy_chain (toy_signer "K"))
    (fun a jwt => x509_san_validate toy_cert (p256_from_spki Some) toy_verifies did_wallet a jwt (None : option (list nat))) = Ok tt.
Proof. vm_compute. reflexivity. Qed.

(** C28: for a verification method with more than one "#", the DID client's requests are rejected by DID
    verification, whatever the wallet, resolver, signature scheme and trust list (unless the algorithm
    contains "none"). *)
Lemma c28_fragments_pf :
  forall (key : Type) (ssi_header : obj -> option bool) (sig_ok : key -> string -> string -> string -> bool)
    (key_eqb : key -> key -> bool) (resolver resolver' : string -> res key) (s : signer key) (x y z alg : string)
    (c : client) (body a : aro) (jwt : string) (wm : wallet_metadata) (trusted : option (list string)),
    did_client key_eqb resolver (x +:+ "#" +:+ y +:+ "#" +:+ z) s = Ok c ->
    sg_alg s = Ok alg -> ~ contains "none" alg ->
    utf8_valid (x +:+ "#" +:+ y +:+ "#" +:+ z) = true -> utf8_valid alg = true ->
    cl_jwt c body = Ok jwt -> ro_client_id a = Some (cl_client_id c) ->
    exists e, verify_with_resolver ssi_header sig_ok resolver' wm a jwt trusted = Err e.
Proof.
  intros key ssi sig_ok key_eqb resolver resolver' s x y z alg c body a jwt wm trusted Hc Ha Hn Hu Hua Hj Hid.
  destruct (verify_with_resolver ssi sig_ok resolver' wm a jwt trusted) as [[]|e] eqn:V; [exfalso|eauto].
  apply c23_did_pf in V as (h64 & p64 & s64 & h & alg' & Hs & Hh & Ha' & _ & V).
  unfold did_client in Hc. apply rbind_ok in Hc as ([id f] & Hr & Hc). apply ok_or_ok in Hr. apply rsplit_once_some in Hr as [Hr Hf].
  apply rbind_ok in Hc as (jwk & Hk & Hc). apply rbind_ok in Hc as (own & Ho & Hc).
  apply rbind_ok in Hc as (u & He & Hc). injection Hc as <-. cbn [cl_jwt cl_client_id] in Hj, Hid.
  rewrite Ha in Hj. cbn [rbind] in Hj. injection Hj as <-.
  destruct (did_header_ok alg (x +:+ "#" +:+ y +:+ "#" +:+ z) Hua Hu) as [W D].
  destruct (made_jwt _ body s W D) as (h64' & p64' & s64' & Hs' & Hh' & _).
  destruct (compact_unique _ _ _ _ _ _ _ Hs Hs') as (<- & <- & <-).
  assert (Eh := header_unique _ _ _ Hh Hh'). subst h. cbv in Ha'. injection Ha' as <-.
  destruct V as [V|(_ & kid & did & fragment & cid & k & enc & pl & j & sg & Hkid & Hd & Hnd & Hcid & Hnm & _)]; [tauto|].
  unfold text_at in Hkid. cbn [obj_get String.eqb Ascii.eqb Bool.eqb] in Hkid. injection Hkid as <-.
  assert (E : cid = "decentralized_identifier" +:+ ":" +:+ id) by (rewrite Hid in Hcid; injection Hcid as <-; reflexivity). rewrite E in Hnm.
  apply names_prefixed in Hnm. subst id.
  (* [did] has no '#', but what precedes the last '#' of the verification method has one *)
  clear - Hr Hf Hnd.
  assert (X : has_char "#" (y +:+ "#" +:+ z) = true).
  { rewrite !has_char_app. cbn. now rewrite orb_true_r. }
  assert (S1 : split_once "#" (x +:+ "#" +:+ y +:+ "#" +:+ z) = Some (did, f)) by (apply split_once_some; auto).
  destruct (has_char "#" x) eqn:Ex.
  - apply has_char_iff in Ex as (x1 & x2 & ->).
    assert (L : exists p q r, x1 +:+ String "#" x2 +:+ "#" +:+ y +:+ "#" +:+ z = p +:+ "#" +:+ q +:+ "#" +:+ r /\ has_char "#" p = false).
    { clear. destruct (split_once "#" x1) as [[p q]|] eqn:E.
      - apply split_once_some in E as [-> N]. exists p, (q +:+ String "#" x2), (y +:+ "#" +:+ z). split; [|exact N].
        rewrite !sapp_assoc. cbn. rewrite ?sapp_assoc. reflexivity.
      - apply split_once_none in E. exists x1, x2, (y +:+ "#" +:+ z). split; [|exact E]. reflexivity. }
    destruct L as (p & q & r & E & N). rewrite sapp_assoc in S1. cbn in S1. cbn in E.
    rewrite E in S1. assert (S2 : split_once "#" (p +:+ String "#" (q +:+ String "#" r)) = Some (p, q +:+ String "#" r)) by (apply split_once_some; auto).
    rewrite S2 in S1. injection S1 as <- <-. rewrite has_char_app in Hf. cbn in Hf. now rewrite orb_true_r in Hf.
  - assert (S2 : split_once "#" (x +:+ "#" +:+ y +:+ "#" +:+ z) = Some (x, y +:+ "#" +:+ z)) by (apply split_once_some; auto).
    rewrite S2 in S1. injection S1 as <- <-. exact (eq_true_false_abs _ X Hf).
Qed.

Example c28_fragments_ex :
  roundtrip (did_client String.eqb (fun _ => Ok "K") ("did:x" +:+ "#" +:+ "a" +:+ "#" +:+ "b") (toy_signer "K"))
    (fun a jwt => verify_with_resolver any_header toy_sig (fun _ => Ok "K") did_wallet a jwt None) = Err "DIDs do not match".
Proof. vm_compute. reflexivity. Qed.

(* ------------------------------------------------------------ C70 *)
Lemma resolved_payload up ssi uok http r a jwt :
  snd (resolve_request up ssi uok http r) = Ok (a, Some jwt) ->
  exists h64 p64 s64 h enc payload, compact jwt h64 p64 s64 /\ header_text h64 h
    /\ ssi h = Some enc /\ payload_text enc p64 payload /\ json_of_text payload = Some (JObj (aro_to_obj a))
    /\ accepted up (aro_to_obj a) a.
Proof.
  intros H. assert (D : decode_aro up ssi jwt = Ok a).
  { destruct (ar_indirection r) as [v|u|o] eqn:E.
    - rewrite (resolve_value _ _ _ _ _ _ E) in H. cbn [snd] in H. apply rbind_ok in H as (? & _ & H).
      apply rbind_ok in H as (b & D & H). injection H as <- <-. exact D.
    - rewrite (resolve_reference _ _ _ _ _ _ E) in H. destruct (uok (url_str u)); [|discriminate]. cbn [snd] in H.
      apply rbind_ok in H as (rs & _ & H). apply rbind_ok in H as (? & _ & H). apply rbind_ok in H as (? & _ & H). apply rbind_ok in H as (? & _ & H).
      apply rbind_ok in H as (b & D & H). injection H as <- <-. exact D.
    - rewrite (resolve_direct _ _ _ _ _ _ E) in H. cbn [snd] in H. apply rbind_ok in H as (b & D & H). discriminate. }
  unfold decode_aro in D. apply rbind_ok in D as (o & D & A).
  apply unverified_iff in D as (h & pl & P & J). apply payload_iff in P as (h64 & p64 & s64 & enc & sg & Hs & Hh & _ & He & Hp).
  apply aro_of_inv in A. pose proof (acc_inner _ _ _ A) as Hi. exists h64, p64, s64, h, enc, pl. unfold aro_to_obj. rewrite Hi. auto 7.
Qed.
Lemma prefixed up a prefix : accepted up (aro_to_obj a) a -> ro_scheme a = Some prefix ->
  exists rest, ro_client_id a = Some (prefix +:+ ":" +:+ rest) /\ text_at "client_id" (aro_to_obj a) (prefix +:+ ":" +:+ rest).
Proof.
  intros [_ Hc Hs _ _ _ _ _] E. destruct (ro_client_id a) as [c|]; [|congruence]. rewrite E in Hs. symmetry in Hs.
  rewrite resolve_prefix_split in Hs. destruct (split_once ":" c) as [[x rest]|] eqn:S; [|discriminate]. injection Hs as ->.
  apply split_once_some in S as [-> _]. exists rest. auto.
Qed.
Lemma same_id (a : aro) prefix rest cid name : ro_client_id a = Some (prefix +:+ ":" +:+ rest) -> ro_client_id a = Some cid ->
  names prefix cid name -> name = rest.
Proof. intros E E'. rewrite E in E'. injection E' as <-. apply names_prefixed. Qed.
Lemma hook_named prefix h h' (a : aro) : In (prefix, h') known_hooks -> ro_scheme a = Some prefix ->
  hook_of_prefix (ro_scheme a) h -> h = h'.
Proof.
  intros I -> [J|(_ & N & _)].
  - cbn in I, J. clear a. repeat (destruct I as [I|I]; [injection I as <- <-;
      repeat (destruct J as [J|J]; [first [discriminate J | now injection J as <-]|]); destruct J|]). destruct I.
  - exfalso. apply N. apply (in_map fst) in I. exact I.
Qed.

(** C70: when a wallet delegates x509_hash clients to the library's verification, every validated request of such
    a client is exactly the payload of a JWT whose signature is valid under the key of the certificate that the
    client identifier designates. *)
Lemma c70_x509_hash_pf :
  forall (url_parse : string -> option url) (ssi_header : obj -> option bool) (uri_ok : string -> bool)
    (cert_of_der : string -> option cert) (vkey root : Type) (from_spki : string -> string -> option vkey)
    (verifies : vkey -> string -> string -> bool) (roots : option (list root)) (w : wallet) (r : auth_request) (a : aro),
    (forall a jwt, w_hook w HX509Hash a jwt = Ok tt -> exists j, jwt = Some j
       /\ x509_hash_validate cert_of_der from_spki verifies (w_metadata w) a j roots = Ok tt) ->
    snd (validate url_parse ssi_header uri_ok w r) = Ok a -> ro_scheme a = Some "x509_hash" ->
    exists jwt h64 p64 s64 h enc payload alg der c v sg,
      snd (resolve_request url_parse ssi_header uri_ok (w_http w) r) = Ok (a, Some jwt) /\ compact jwt h64 p64 s64
      /\ header_text h64 h /\ ssi_header h = Some enc /\ payload_text enc p64 payload
      /\ json_of_text payload = Some (JObj (aro_to_obj a))
      /\ text_at "client_id" (aro_to_obj a) ("x509_hash:" +:+ b64url_encode (sha256 der))
      /\ first_certificate h der /\ cert_of_der der = Some c
      /\ text_at "alg" h alg /\ alg_supported (w_metadata w) alg
      /\ from_spki (c_spki c) alg = Some v /\ b64url_decode s64 = Some sg /\ verifies v (h64 +:+ "." +:+ p64) sg = true.
Proof.
  intros up ssi uok cod vkey root fs vv roots w r a Hw V Sc.
  apply c19_validate_pf in V as (jwt & h & R & Hh & Hook & _ & _).
  apply (hook_named "x509_hash" h HX509Hash) in Hh; [|cbn; auto 10|exact Sc]. subst h. apply Hw in Hook as (j & -> & Hv).
  pose proof R as R0. apply resolved_payload in R as (h64 & p64 & s64 & h & enc & pl & Hs & Hd & He & Hp & Hj & A).
  apply c25_x509_hash_pf in Hv as (h64' & p64' & s64' & h' & alg & der & c & cid & v & sg & Hs' & Hd' & Ha & Hl & Hf & Hc & Hid & Hn & Hk & Hg & Hver).
  destruct (compact_unique _ _ _ _ _ _ _ Hs Hs') as (<- & <- & <-). assert (h' = h) by (eapply header_unique; eassumption). subst h'.
  destruct (prefixed _ _ _ A Sc) as (rest & Ec & T). apply (same_id _ _ _ _ _ Ec Hid) in Hn. subst rest.
  exists j, h64, p64, s64, h, enc, pl, alg, der, c, v, sg. repeat (split; [assumption|]). assumption.
Qed.

Definition verifying_hook (h : hook) (a : aro) (jwt : option string) : res unit :=
  match h, jwt with
  | HX509Hash, Some j => x509_hash_validate toy_cert (p256_from_spki Some) toy_verifies did_wallet a j (None : option (list nat))
  | HX509San, Some j => x509_san_validate toy_cert (p256_from_spki Some) toy_verifies did_wallet a j (None : option (list nat))
  | HDid, Some j => verify_with_resolver any_header toy_sig toy_resolver did_wallet a j None
  | _, _ => Err "not supported"
  end.
Definition verifying_wallet : wallet :=
  mk_wallet (mk_wm (obj_insert "client_id_prefixes_supported" (jstrs ["x509_hash"; "x509_san_dns"; "decentralized_identifier"]) (wm_obj did_wallet))
               (wm_endpoint did_wallet) []) (serve 404 "") verifying_hook.
Definition authentic (c : res client) : res unit :=
  roundtrip c (fun a jwt => let? _ := snd (validate simple_parse any_header (fun _ => true) verifying_wallet (mk_ar None (ByValue jwt))) in Ok tt).
Example c70_x509_hash_ex :
  authentic (x509_hash_client toy_der toy_chain (toy_signer "K")) = Ok tt
  /\ authentic (x509_hash_client toy_der toy_chain (toy_signer "X")) = Err "signature could not be verified".
Proof. split; vm_compute; reflexivity. Qed.

(** C70: the same for x509_san_dns clients. *)
Lemma c70_x509_san_pf :
  forall (url_parse : string -> option url) (ssi_header : obj -> option bool) (uri_ok : string -> bool)
    (cert_of_der : string -> option cert) (vkey root : Type) (from_spki : string -> string -> option vkey)
    (verifies : vkey -> string -> string -> bool) (roots : option (list root)) (w : wallet) (r : auth_request) (a : aro),
    (forall a jwt, w_hook w HX509San a jwt = Ok tt -> exists j, jwt = Some j
       /\ x509_san_validate cert_of_der from_spki verifies (w_metadata w) a j roots = Ok tt) ->
    snd (validate url_parse ssi_header uri_ok w r) = Ok a -> ro_scheme a = Some "x509_san_dns" ->
    exists jwt h64 p64 s64 h enc payload alg der c dns v sg,
      snd (resolve_request url_parse ssi_header uri_ok (w_http w) r) = Ok (a, Some jwt) /\ compact jwt h64 p64 s64
      /\ header_text h64 h /\ ssi_header h = Some enc /\ payload_text enc p64 payload
      /\ json_of_text payload = Some (JObj (aro_to_obj a))
      /\ text_at "client_id" (aro_to_obj a) ("x509_san_dns:" +:+ dns) /\ certified c dns
      /\ first_certificate h der /\ cert_of_der der = Some c
      /\ text_at "alg" h alg /\ alg_supported (w_metadata w) alg
      /\ from_spki (c_spki c) alg = Some v /\ b64url_decode s64 = Some sg /\ verifies v (h64 +:+ "." +:+ p64) sg = true.
Proof.
  intros up ssi uok cod vkey root fs vv roots w r a Hw V Sc.
  apply c19_validate_pf in V as (jwt & h & R & Hh & Hook & _ & _).
  apply (hook_named "x509_san_dns" h HX509San) in Hh; [|cbn; auto 10|exact Sc]. subst h. apply Hw in Hook as (j & -> & Hv).
  pose proof R as R0. apply resolved_payload in R as (h64 & p64 & s64 & h & enc & pl & Hs & Hd & He & Hp & Hj & A).
  apply c26_x509_san_pf in Hv as (h64' & p64' & s64' & h' & alg & der & c & cid & dns & v & sg & Hs' & Hd' & Ha & Hl & Hf & Hc & Hid & Hn & Hi & Hk & Hg & Hver).
  destruct (compact_unique _ _ _ _ _ _ _ Hs Hs') as (<- & <- & <-). assert (h' = h) by (eapply header_unique; eassumption). subst h'.
  destruct (prefixed _ _ _ A Sc) as (rest & Ec & T). apply (same_id _ _ _ _ _ Ec Hid) in Hn. subst rest.
  exists j, h64, p64, s64, h, enc, pl, alg, der, c, dns, v, sg. repeat (split; [assumption|]). assumption.
Qed.

Example c70_x509_san_ex :
  authentic (x509_san_client toy_der toy_chain (toy_signer "K")) = Ok tt
  /\ authentic (x509_san_client toy_der toy_chain (toy_signer "X")) = Err "signature could not be verified".
Proof. split; vm_compute; reflexivity. Qed.

(** C70: the same for DID clients, for a wallet that lists no algorithm containing "none". *)
Lemma c70_did_pf :
  forall (url_parse : string -> option url) (ssi_header : obj -> option bool) (uri_ok : string -> bool)
    (key : Type) (sig_ok : key -> string -> string -> string -> bool) (resolver : string -> res key)
    (trusted : option (list string)) (w : wallet) (r : auth_request) (a : aro),
    (forall a jwt, w_hook w HDid a jwt = Ok tt -> exists j, jwt = Some j
       /\ verify_with_resolver ssi_header sig_ok resolver (w_metadata w) a j trusted = Ok tt) ->
    (forall alg, alg_supported (w_metadata w) alg -> ~ contains "none" alg) ->
    snd (validate url_parse ssi_header uri_ok w r) = Ok a -> ro_scheme a = Some "decentralized_identifier" ->
    exists jwt h64 p64 s64 h enc payload alg did fragment k sg,
      snd (resolve_request url_parse ssi_header uri_ok (w_http w) r) = Ok (a, Some jwt) /\ compact jwt h64 p64 s64
      /\ header_text h64 h /\ ssi_header h = Some enc /\ payload_text enc p64 payload
      /\ json_of_text payload = Some (JObj (aro_to_obj a))
      /\ text_at "client_id" (aro_to_obj a) ("decentralized_identifier:" +:+ did)
      /\ text_at "kid" h (did +:+ "#" +:+ fragment)
      /\ (forall l, trusted = Some l -> In did l)
      /\ text_at "alg" h alg /\ alg_supported (w_metadata w) alg
      /\ resolver (did +:+ "#" +:+ fragment) = Ok k /\ b64url_decode s64 = Some sg /\ sig_ok k alg (h64 +:+ "." +:+ p64) sg = true.
Proof.
  intros up ssi uok key sig_ok resolver trusted w r a Hw Hnone V Sc.
  apply c19_validate_pf in V as (jwt & h & R & Hh & Hook & _ & _).
  apply (hook_named "decentralized_identifier" h HDid) in Hh; [|cbn; auto 10|exact Sc]. subst h. apply Hw in Hook as (j & -> & Hv).
  pose proof R as R0. apply resolved_payload in R as (h64 & p64 & s64 & h & enc & pl & Hs & Hd & He & Hp & Hj & A).
  apply c23_did_pf in Hv as (h64' & p64' & s64' & h' & alg & Hs' & Hd' & Ha & Hl & Hv).
  destruct (compact_unique _ _ _ _ _ _ _ Hs Hs') as (<- & <- & <-). assert (h' = h) by (eapply header_unique; eassumption). subst h'.
  destruct Hv as [Hv|(_ & kid & did & fragment & cid & k & enc' & pl' & body & sg & Hk & -> & _ & Hid & Hn & Ht & Hr & Hg & Hver & _)].
  { exfalso. exact (Hnone _ Hl Hv). }
  destruct (prefixed _ _ _ A Sc) as (rest & Ec & T). apply (same_id _ _ _ _ _ Ec Hid) in Hn. subst rest.
  exists j, h64, p64, s64, h, enc, pl, alg, did, fragment, k, sg. repeat (split; [assumption|]). assumption.
Qed.

Example c70_did_ex :
  authentic (did_client String.eqb toy_resolver "did:web:v.example#1" (toy_signer "K")) = Ok tt
  /\ authentic (did_client (fun _ _ => true) toy_resolver "did:web:v.example#1" (toy_signer "X")) = Err "invalid-signature".
Proof. split; vm_compute; reflexivity. Qed.
