From Coq Require Import Lia.
From Verif Require Import Base BaseFacts Utf8 Utf8Facts Json JsonFacts JsonText JsonTextFacts Serde MapFacts Base64 Base64Facts Url Object
  Formats Params Metadata Effects Jwt Request Verify Did X509 Client Spec SpecObject SpecRequest SpecVerify ParamFacts PfText PfRequest PfResolve PfVerify.

Lemma split_iff jwt h p s : split_jws jwt = Ok (h, p, s) <-> compact jwt h p s.
Proof.
  split.
  - unfold split_jws. destruct (split_once "." jwt) as [[x r]|] eqn:E; [|discriminate].
    destruct (split_once "." r) as [[y z]|] eqn:E'; [|discriminate]. intros H. injection H as -> -> ->.
    apply split_once_some in E as [-> N]. apply split_once_some in E' as [-> N']. repeat split; assumption.
  - intros (-> & N & N'). now apply split_jws_join.
Qed.
Lemma compact_unique jwt h p s h' p' s' : compact jwt h p s -> compact jwt h' p' s' -> h = h' /\ p = p' /\ s = s'.
Proof. intros A B. apply split_iff in A, B. rewrite A in B. injection B as -> -> ->. auto. Qed.
Lemma headers_iff h64 h : jws_headers h64 = Ok h <-> header_text h64 h.
Proof.
  unfold jws_headers, header_text, map_of_text. rewrite rbind_iff. split.
  - intros (t & E & H). apply ok_or_ok in E. exists t. split; [exact E|].
    destruct (json_of_text t) as [[]|]; try discriminate. now injection H as ->.
  - intros (t & E & H). exists t. rewrite E, H. auto.
Qed.
Lemma header_unique h64 h h' : header_text h64 h -> header_text h64 h' -> h = h'.
Proof. intros A B. apply headers_iff in A, B. congruence. Qed.
Lemma hstr_iff k h s : header_str k h = Ok s <-> text_at k h s.
Proof.
  unfold header_str, text_at. destruct (obj_get k h) as [v|]; [|split; discriminate].
  cbn. destruct v; cbn; split; congruence.
Qed.
Lemma algs_iff wm alg :
  (exists l, parsing_error (uo_get p_signing_algs (wm_obj wm)) = Ok l /\ mem_str alg l = true) <-> alg_supported wm alg.
Proof.
  unfold uo_get, alg_supported. cbn [tp_key tp_of p_signing_algs p_strings].
  destruct (obj_get "request_object_signing_alg_values_supported" (wm_obj wm)) as [v|]; cbn [parsing_error].
  - split.
    + intros (l & H & M). exists l. split; [|now apply mem_str_iff].
      destruct (de_list de_str v) as [x|e] eqn:E; cbn in H; [|discriminate]. injection H as ->. apply strings_get in E. now rewrite E.
    + intros (l & H & M). injection H as H. apply strings_get in H. exists l. rewrite H. split; [reflexivity|now apply mem_str_iff].
  - split; [intros (l & H & _); discriminate|intros (l & H & _); discriminate].
Qed.
Lemma bool_iff b e : of_bool b e = Ok tt <-> b = true.
Proof. destruct b; cbn; split; congruence. Qed.
Lemma names_iff prefix c name :
  match strip_prefix (prefix +:+ ":") c with Some d => d | None => c end = name <-> names prefix c name.
Proof.
  unfold names. destruct (strip_prefix (prefix +:+ ":") c) as [d|] eqn:E.
  - apply strip_prefix_some in E. rewrite sapp_assoc in E. split.
    + intros <-. left. exact E.
    + intros [H|[_ N]].
      * rewrite H in E. apply sapp_inv_head in E. cbn in E. congruence.
      * exfalso. eauto.
  - split.
    + intros <-. right. split; [reflexivity|]. intros [r ->].
      change (prefix +:+ ":" +:+ r) with (prefix +:+ (":" +:+ r)) in E. rewrite <- sapp_assoc, strip_prefix_app in E. discriminate.
    + intros [->|[-> _]]; [|reflexivity]. rewrite <- sapp_assoc, strip_prefix_app in E. discriminate.
Qed.
Lemma sub_iff sub s : has_sub sub s = true <-> contains sub s.
Proof. apply has_sub_iff. Qed.

Section Sound.
Context {key : Type}.
Variable ssi_header : obj -> option bool.
Variable sig_ok : key -> string -> string -> string -> bool.

Lemma payload_iff jwt h pl : jws_payload ssi_header jwt = Ok (h, pl) <->
  exists h64 p64 s64 enc sg, compact jwt h64 p64 s64 /\ header_text h64 h /\ b64url_decode s64 = Some sg
    /\ ssi_header h = Some enc /\ payload_text enc p64 pl.
Proof.
  unfold jws_payload. rewrite rbind_iff. split.
  - intros ([[h64 p64] s64] & Hs & H). apply split_iff in Hs.
    apply rbind_ok in H as (sg & Hg & H). apply ok_or_ok in Hg.
    apply rbind_ok in H as (m & Hm & H). apply headers_iff in Hm.
    apply rbind_ok in H as (enc & He & H). apply ok_or_ok in He.
    apply rbind_ok in H as (t & Ht & H). injection H as -> ->.
    exists h64, p64, s64, enc, sg. repeat (split; [assumption|]). unfold payload_text.
    destruct enc; [now apply ok_or_ok in Ht|now injection Ht].
  - intros (h64 & p64 & s64 & enc & sg & Hs & Hm & Hg & He & Hp). exists (h64, p64, s64). apply split_iff in Hs.
    split; [exact Hs|]. rewrite Hg. cbn [ok_or rbind]. apply headers_iff in Hm. rewrite Hm. cbn [rbind]. rewrite He. cbn [ok_or rbind].
    unfold payload_text in Hp. destruct enc; [rewrite Hp|rewrite <- Hp]; reflexivity.
Qed.
Lemma unverified_iff jwt o : decode_unverified ssi_header jwt = Ok o <->
  exists h pl, jws_payload ssi_header jwt = Ok (h, pl) /\ json_of_text pl = Some (JObj o).
Proof.
  unfold decode_unverified, map_of_text. rewrite rbind_iff. split.
  - intros ([h pl] & E & H). exists h, pl. split; [exact E|]. destruct (json_of_text pl) as [[]|]; try discriminate. now injection H as ->.
  - intros (h & pl & E & H). exists (h, pl). rewrite H. auto.
Qed.
Lemma verified_iff jwt k : (exists j, decode_verify ssi_header sig_ok jwt k = Ok j) <->
  exists h64 p64 s64 h alg enc sg pl j, compact jwt h64 p64 s64 /\ header_text h64 h /\ text_at "alg" h alg
    /\ ssi_header h = Some enc /\ payload_text enc p64 pl /\ json_of_text pl = Some j
    /\ b64url_decode s64 = Some sg /\ sig_ok k alg (h64 +:+ "." +:+ p64) sg = true.
Proof.
  split.
  - intros (j & H). unfold decode_verify in H. apply rbind_ok in H as ([[h64 p64] s64] & Hs & H).
    apply rbind_ok in H as ([h pl] & Hp & H). apply rbind_ok in H as (sg & Hg & H). apply rbind_ok in H as (alg & Ha & H).
    apply rbind_ok in H as (u & Hv & H). apply of_bool_ok in Hv. apply ok_or_ok in H, Hg. apply hstr_iff in Ha. apply split_iff in Hs.
    apply payload_iff in Hp as (h64' & p64' & s64' & enc & sg' & Hs' & Hh & Hg' & He & Hp).
    destruct (compact_unique _ _ _ _ _ _ _ Hs Hs') as (<- & <- & <-).
    exists h64, p64, s64, h, alg, enc, sg, pl, j. repeat (split; [assumption|]). assumption.
  - intros (h64 & p64 & s64 & h & alg & enc & sg & pl & j & Hs & Hh & Ha & He & Hp & Hj & Hg & Hv). exists j.
    assert (P : jws_payload ssi_header jwt = Ok (h, pl)) by (apply payload_iff; exists h64, p64, s64, enc, sg; auto 6).
    unfold decode_verify. apply split_iff in Hs. rewrite Hs. cbn [rbind]. rewrite P. cbn [rbind]. rewrite Hg. cbn [ok_or rbind].
    apply hstr_iff in Ha. rewrite Ha. cbn [rbind]. rewrite Hv. cbn [of_bool rbind]. now rewrite Hj.
Qed.
End Sound.

(** C23: verification with a resolver accepts exactly when the JWT's alg is one the wallet lists and either it
    contains "none", or: the kid is a DID, "#" and a fragment; the DID is the one the client identifier names;
    it is on the trust list, if there is one; and the JWT carries a valid signature, over its header and
    payload, by the key that the resolver gives for the kid. *)
Lemma c23_did_pf :
  forall (key : Type) (ssi_header : obj -> option bool) (sig_ok : key -> string -> string -> string -> bool)
    (resolver : string -> res key) (wm : wallet_metadata) (a : aro) (jwt : string) (trusted : option (list string)),
    verify_with_resolver ssi_header sig_ok resolver wm a jwt trusted = Ok tt
    <-> exists h64 p64 s64 h alg,
          compact jwt h64 p64 s64 /\ header_text h64 h /\ text_at "alg" h alg /\ alg_supported wm alg
          /\ (contains "none" alg
              \/ ~ contains "none" alg
                 /\ exists kid did fragment client_id k enc payload body sg,
                    text_at "kid" h kid /\ kid = did +:+ "#" +:+ fragment /\ has_char "#" did = false
                    /\ ro_client_id a = Some client_id /\ names "decentralized_identifier" client_id did
                    /\ (forall l, trusted = Some l -> In did l)
                    /\ resolver kid = Ok k
                    /\ b64url_decode s64 = Some sg /\ sig_ok k alg (h64 +:+ "." +:+ p64) sg = true
                    /\ ssi_header h = Some enc /\ payload_text enc p64 payload /\ json_of_text payload = Some body).
Proof.
  intros key ssi sig_ok resolver wm a jwt trusted. unfold verify_with_resolver. split.
  - intros H. apply rbind_ok in H as ([[h64 p64] s64] & Hs & H). apply split_iff in Hs.
    apply rbind_ok in H as (h & Hh & H). apply headers_iff in Hh. apply rbind_ok in H as (alg & Ha & H). apply hstr_iff in Ha.
    apply rbind_ok in H as (algs & Hl & H). apply rbind_ok in H as (u & Hm & H). apply of_bool_ok in Hm.
    exists h64, p64, s64, h, alg. repeat (split; [assumption|]).
    split; [apply algs_iff; eauto|]. destruct (has_sub "none" alg) eqn:N; [left; now apply sub_iff|right].
    split; [rewrite <- sub_iff; congruence|].
    apply rbind_ok in H as (kid & Hk & H). apply hstr_iff in Hk. apply rbind_ok in H as (cid & Hc & H). apply ok_or_ok in Hc.
    apply rbind_ok in H as ([did fragment] & Hd & H). apply ok_or_ok in Hd. apply split_once_some in Hd as [Hd Hn].
    apply rbind_ok in H as (u1 & He & H). apply of_bool_ok, String.eqb_eq in He. apply names_iff in He.
    apply rbind_ok in H as (u2 & Ht & H). apply rbind_ok in H as (k & Hr & H). apply rbind_ok in H as (j & Hv & _).
    assert (V : exists j, decode_verify ssi sig_ok jwt k = Ok j) by eauto. clear Hv j.
    apply verified_iff in V as (h64' & p64' & s64' & h' & alg' & enc & sg & pl & j & Hs' & Hh' & Ha' & He' & Hp & Hj & Hg & Hv).
    destruct (compact_unique _ _ _ _ _ _ _ Hs Hs') as (<- & <- & <-). assert (h' = h) by (eapply header_unique; eassumption). subst h'.
    unfold text_at in Ha, Ha'. assert (alg' = alg) by congruence. subst alg'.
    exists kid, did, fragment, cid, k, enc, pl, j, sg. repeat (split; [assumption|]). split.
    { intros l ->. apply of_bool_ok, mem_str_iff in Ht. exact Ht. }
    repeat (split; [assumption|]). assumption.
  - intros (h64 & p64 & s64 & h & alg & Hs & Hh & Ha & Hl & H). pose proof (proj2 (split_iff _ _ _ _) Hs) as Hs0. rewrite Hs0. cbn [rbind].
    pose proof (proj2 (headers_iff _ _) Hh) as Hh0. rewrite Hh0. cbn [rbind]. pose proof (proj2 (hstr_iff _ _ _) Ha) as Ha0. rewrite Ha0. cbn [rbind].
    apply algs_iff in Hl as (l & Hl & Hm). rewrite Hl. cbn [rbind]. rewrite Hm. cbn [of_bool rbind].
    destruct H as [H|(N & kid & did & fragment & cid & k & enc & pl & j & sg & Hk & Hd & Hn & Hc & He & Ht & Hr & Hg & Hv & Hi & Hp & Hj)].
    + apply sub_iff in H. now rewrite H.
    + destruct (has_sub "none" alg) eqn:E; [apply sub_iff in E; tauto|].
      apply hstr_iff in Hk. rewrite Hk. cbn [rbind]. rewrite Hc. cbn [ok_or rbind].
      assert (X : split_once "#" kid = Some (did, fragment)) by (apply split_once_some; auto). rewrite X. cbn [ok_or rbind]. clear X.
      apply names_iff in He. change DECENTRALIZED_IDENTIFIER with "decentralized_identifier". rewrite He, String.eqb_refl. cbn [of_bool rbind].
      assert (X : match trusted with None => Ok tt | Some l => of_bool (mem_str did l) "not trusted" end = Ok tt).
      { destruct trusted as [l'|]; [|reflexivity]. apply bool_iff, mem_str_iff. now apply Ht. }
      rewrite X. cbn [rbind]. clear X. rewrite Hr. cbn [rbind].
      assert (V : exists j, decode_verify ssi sig_ok jwt k = Ok j).
      { apply verified_iff. exists h64, p64, s64, h, alg, enc, sg, pl, j. repeat (split; [assumption|]). assumption. }
      destruct V as [x ->]. reflexivity.
Qed.

Definition did_wallet : wallet_metadata :=
  mk_wm [("request_object_signing_alg_values_supported", jstrs ["ES256"; "none"])] (mk_url "openid4vp" None "" true None None) [].
Definition did_request : obj :=
  obj_insert "client_id" (JStr "decentralized_identifier:did:web:v.example") sample_request.
(** A toy signature scheme: the signature is the key followed by the message. *)
Definition toy_sig (k alg m sg : string) : bool := String.eqb sg (k +:+ m).
Definition toy_signer (k : string) : signer string := mk_signer (Ok "ES256") (Ok k) (fun m => k +:+ m).
Definition toy_resolver (kid : string) : res string := if String.eqb kid "did:web:v.example#1" then Ok "K" else Err "unknown".
Definition did_verdict (signer_key : string) (trusted : option (list string)) (h : json) : res unit :=
  let? a := aro_of_obj simple_parse did_request in
  verify_with_resolver any_header toy_sig toy_resolver did_wallet a (make_jwt h a (toy_signer signer_key)) trusted.
Example c23_did_ex :
  did_verdict "K" (Some ["did:web:v.example"]) (did_header "ES256" "did:web:v.example#1") = Ok tt
  /\ did_verdict "X" None (did_header "ES256" "did:web:v.example#1") = Err "invalid-signature"
  /\ did_verdict "K" (Some ["did:web:other"]) (did_header "ES256" "did:web:v.example#1") = Err "not trusted"
  /\ did_verdict "K" None (did_header "ES256" "did:web:other#1") = Err "DIDs do not match"
  /\ did_verdict "K" None (did_header "ES384" "did:web:v.example#1") = Err "unsupported algorithm".
Proof. repeat split; vm_compute; reflexivity. Qed.

(** C24: when the wallet lists an algorithm that contains "none", every JWT with that alg is accepted, for
    every client identifier, trust list and resolver, whatever stands in place of the signature. *)
Lemma c24_none_bypass_pf :
  forall (key : Type) (ssi_header : obj -> option bool) (sig_ok : key -> string -> string -> string -> bool)
    (resolver : string -> res key) (wm : wallet_metadata) (a : aro) (trusted : option (list string))
    (alg p64 s64 : string),
    alg_supported wm alg -> contains "none" alg -> utf8_valid alg = true -> has_char "." p64 = false ->
    verify_with_resolver ssi_header sig_ok resolver wm a
      (b64url_encode (jprint (JObj [("alg", JStr alg)])) +:+ "." +:+ p64 +:+ "." +:+ s64) trusted = Ok tt.
Proof.
  intros key ssi sig_ok resolver wm a trusted alg p64 s64 Hl Hn Hu Hp. apply c23_did_pf.
  exists (b64url_encode (jprint (JObj [("alg", JStr alg)]))), p64, s64, [("alg", JStr alg)], alg.
  split; [split; [reflexivity|]; split; [apply b64url_no_dot|exact Hp]|].
  split; [|split; [reflexivity|split; [exact Hl|now left]]].
  exists (jprint (JObj [("alg", JStr alg)])). split; [apply b64_rt|]. apply json_text_rt.
  - unfold jwf. cbn. now rewrite Hu.
  - cbn. lia.
Qed.

Example c24_none_bypass_ex :
  alg_supported did_wallet "none" /\ contains "none" "none" /\ contains "none" "nonesuch"
  /\ exists a, aro_of_obj simple_parse did_request = Ok a
     /\ verify_with_resolver any_header toy_sig (fun _ => Err "unknown") did_wallet a "eyJhbGciOiJub25lIn0.e30." (Some []) = Ok tt.
Proof.
  split; [exists ["ES256"; "none"]; split; [reflexivity|cbn; tauto]|].
  split; [exists "", ""; reflexivity|]. split; [exists "", "such"; reflexivity|]. eexists. split; [reflexivity|vm_compute; reflexivity].
Qed.

(** C24: the bypass needs the wallet to list such an algorithm: otherwise the JWT has a valid signature by the
    key that its kid names, which belongs to the client's DID. *)
Lemma c24_no_bypass_pf :
  forall (key : Type) (ssi_header : obj -> option bool) (sig_ok : key -> string -> string -> string -> bool)
    (resolver : string -> res key) (wm : wallet_metadata) (a : aro) (jwt : string) (trusted : option (list string)),
    (forall alg, alg_supported wm alg -> ~ contains "none" alg) ->
    verify_with_resolver ssi_header sig_ok resolver wm a jwt trusted = Ok tt ->
    exists h64 p64 s64 h alg did fragment client_id k sg,
      compact jwt h64 p64 s64 /\ header_text h64 h /\ text_at "alg" h alg /\ alg_supported wm alg
      /\ text_at "kid" h (did +:+ "#" +:+ fragment) /\ has_char "#" did = false
      /\ ro_client_id a = Some client_id /\ names "decentralized_identifier" client_id did
      /\ (forall l, trusted = Some l -> In did l) /\ resolver (did +:+ "#" +:+ fragment) = Ok k
      /\ b64url_decode s64 = Some sg /\ sig_ok k alg (h64 +:+ "." +:+ p64) sg = true.
Proof.
  intros key ssi sig_ok resolver wm a jwt trusted N H.
  apply c23_did_pf in H as (h64 & p64 & s64 & h & alg & Hs & Hh & Ha & Hl & [H|H]); [now apply N in Hl|].
  destruct H as (_ & kid & did & fragment & cid & k & enc & pl & j & sg & Hk & -> & Hd & Hc & Hn & Ht & Hr & Hg & Hv & _).
  exists h64, p64, s64, h, alg, did, fragment, cid, k, sg. repeat (split; [assumption|]). assumption.
Qed.

Example c24_no_bypass_ex :
  let wm := mk_wm [("request_object_signing_alg_values_supported", jstrs ["ES256"])] (mk_url "openid4vp" None "" true None None) [] in
  forall alg, alg_supported wm alg -> ~ contains "none" alg.
Proof.
  cbn zeta. intros alg (l & E & I) C. cbn in E. destruct l as [|x [|]]; try discriminate. injection E as <-.
  destruct I as [<-|[]]. apply sub_iff in C. vm_compute in C. discriminate.
Qed.
