From Coq Require Import Sorting.Permutation Lia.
From Verif Require Import Base BaseFacts Json JsonFacts Serde MapFacts Object Formats Params Spec SpecObject
  ParamFacts.

(** C62: a format and security method are supported exactly when the formats map has an entry for the
    format that lists the method as alg or proof type value. *)
Lemma c62_supports_pf :
  forall (m : format_map) (d : designation) (meth : string),
    NoDup (map fst m) ->
    (supports_security_method m d meth = true
     <-> exists l, In meth l /\ (In (d, AlgValues l) m \/ In (d, ProofTypeValues l) m)).
Proof.
  intros m d meth H. unfold supports_security_method. split.
  - destruct (fm_get d m) as [p|] eqn:E; [|discriminate]. apply fm_get_some_in in E.
    destruct p as [l|l|j]; [| |discriminate]; rewrite mem_str_iff; eauto.
  - intros (l & Hi & [Hm|Hm]); rewrite (fm_get_in _ _ _ H Hm); now apply mem_str_iff.
Qed.

Example c62_supports_ex :
  let m := [(MsoMDoc, OtherPayload (JObj [])); (DcSdJwt, AlgValues ["ES256"; "EdDSA"])] in
  NoDup (map fst m) /\ supports_security_method m DcSdJwt "EdDSA" = true
  /\ supports_security_method m MsoMDoc "EdDSA" = false.
Proof. repeat split; repeat constructor; cbn; intuition discriminate. Qed.

(** C62: the answer does not depend on the hash map's iteration order. *)
Lemma c62_order_pf :
  forall (m m' : format_map) (d : designation) (meth : string),
    NoDup (map fst m) -> Permutation m m' ->
    supports_security_method m d meth = supports_security_method m' d meth
    /\ is_claim_format_supported m d = is_claim_format_supported m' d.
Proof.
  intros m m' d meth H P. unfold supports_security_method, is_claim_format_supported.
  now rewrite (fm_get_perm m m' d P H).
Qed.

Example c62_order_ex :
  Permutation [(LdpVc, AlgValues ["a"]); (DcSdJwt, AlgValues ["b"])] [(DcSdJwt, AlgValues ["b"]); (LdpVc, AlgValues ["a"])].
Proof. apply perm_swap. Qed.

(** C63: printing a parsed format name gives the name; a designation survives printing and parsing
    exactly when it is not a known format spelled as an unknown one. *)
Lemma c63_names_pf :
  (forall s, name (from_name s) = s)
  /\ (forall s t, from_name s = from_name t -> s = t)
  /\ (forall d, from_name (name d) = d <-> canonical_designation d).
Proof.
  split; [exact name_from|split].
  - intros s t H. rewrite <- (name_from s), <- (name_from t). now rewrite H.
  - intros d. split; [|apply name_rt]. intros <-. apply from_name_canonical.
Qed.

Example c63_names_ex :
  canonical_designation (OtherFormat "ldp_vp") /\ from_name "dc+sd-jwt" = DcSdJwt
  /\ ~ canonical_designation (OtherFormat "ldp_vc").
Proof. repeat split; cbn; intuition discriminate. Qed.

(** C63: reading a payload never fails and never loses anything; a typed payload survives printing and
    reading exactly when it is not an opaque value with the shape of a known one. *)
Lemma c63_payloads_pf :
  (forall j, exists p, payload_of_json j = Ok p /\ payload_to_json p = j)
  /\ (forall p, payload_of_json (payload_to_json p) = Ok p <-> canonical_payload p).
Proof.
  split.
  - intros j. destruct (payload_of_total j) as [p H]. exists p. split; [exact H|]. now apply payload_to_of.
  - intros p. split; [|apply payload_rt]. apply payload_of_canonical.
Qed.

Example c63_payloads_ex :
  payload_of_json (JObj [("alg_values", JArr [JStr "ES256"])]) = Ok (AlgValues ["ES256"])
  /\ payload_of_json (JObj [("alg_values", JArr [JInt 7])]) = Ok (OtherPayload (JObj [("alg_values", JArr [JInt 7])]))
  /\ ~ canonical_payload (OtherPayload (JObj [("alg_values", JArr [JStr "ES256"])])).
Proof. repeat split. cbn. intros H. destruct (H ["ES256"]) as [H1 _]. now apply H1. Qed.

Lemma format_map_of_spec m fm : keys_sorted m = true -> format_map_of_json (JObj m) = Ok fm ->
  map (fun e => (name (fst e), payload_to_json (snd e))) fm = m /\ format_map_ok fm.
Proof.
  intros Hs H. apply keys_sorted_iff in Hs. cbn [format_map_of_json] in H.
  apply rbind_ok in H as (l & Hl & H). injection H as <-.
  apply mapM_ok in Hl.
  assert (Hm : map (fun e : designation * payload => (name (fst e), payload_to_json (snd e))) l = m
               /\ Forall (fun e : designation * payload => canonical_designation (fst e) /\ canonical_payload (snd e)) l).
  { clear Hs. induction Hl as [|[k v] [d p] m l Hx _ IH]; [split; [reflexivity|constructor]|].
    apply rbind_ok in Hx as (p' & Hp & Hx). cbn [fst snd] in *. injection Hx as <- <-.
    destruct IH as [IH1 IH2]. cbn [map fst snd]. split.
    - rewrite name_from, (payload_to_of _ _ Hp). now rewrite IH1.
    - constructor; [|exact IH2]. cbn. split; [apply from_name_canonical|now apply payload_of_canonical in Hp]. }
  destruct Hm as [Hm Hc].
  assert (Hd : NoDup (map fst l)).
  { apply ksorted_nodup in Hs. rewrite <- Hm in Hs. rewrite map_map in Hs. cbn [fst] in Hs.
    rewrite <- (map_map fst name) in Hs. eapply NoDup_map_inv. exact Hs. }
  rewrite fm_fold_nodup by exact Hd. cbn [app]. split; [exact Hm|]. split; assumption.
Qed.

(** C63: reading a formats object and writing it again gives the same JSON, and what is read is always
    a map that survives the round trip. *)
Lemma c63_map_lossless_pf :
  forall (m : obj) (fm : format_map),
    keys_sorted m = true -> format_map_of_json (JObj m) = Ok fm ->
    format_map_to_json fm = JObj m /\ format_map_ok fm.
Proof.
  intros m fm Hs H. destruct (format_map_of_spec m fm Hs H) as [H1 H2]. split; [|exact H2].
  unfold format_map_to_json. rewrite H1. f_equal. apply obj_of_list_sorted. now apply keys_sorted_iff.
Qed.

Example c63_map_lossless_ex :
  format_map_of_json (JObj [("dc+sd-jwt", JObj [("alg_values", JArr [JStr "ES256"])]); ("x", JNull)])
  = Ok [(DcSdJwt, AlgValues ["ES256"]); (OtherFormat "x", OtherPayload JNull)].
Proof. reflexivity. Qed.

(** C63: a formats map that holds a known format under its own variant and as "other" loses an entry
    when written. *)
Lemma c63_map_lossy_refuted_pf :
  exists m m', NoDup (map fst m) /\ length m = 2
    /\ format_map_of_json (format_map_to_json m) = Ok m' /\ length m' = 1.
Proof.
  exists [(MsoMDoc, AlgValues ["a"]); (OtherFormat "mso_mdoc", AlgValues ["b"])], [(MsoMDoc, AlgValues ["b"])].
  repeat split. repeat constructor; cbn; intuition discriminate.
Qed.

(** C63: [ClaimFormat] values survive printing and reading unless an opaque value is an object with a
    single member. *)
Lemma c63_claim_format_pf :
  forall c, (forall j, c = CfOther j -> forall k v, j <> JObj [(k, v)]) ->
    cf_of_json (cf_to_json c) = Ok c.
Proof.
  intros c H. destruct c as [l|l|j|j|j]; cbn [cf_to_json].
  - unfold cf_of_json, cf_tagged. cbn [String.eqb Ascii.eqb Bool.eqb FORMAT_JWT_VC_JSON].
    cbn [de_fields map obj_get String.eqb Ascii.eqb Bool.eqb rbind nth_fld nth f_req].
    rewrite de_list_strs. reflexivity.
  - unfold cf_of_json, cf_tagged. cbn [String.eqb Ascii.eqb Bool.eqb FORMAT_JWT_VC_JSON FORMAT_LDP_VC].
    cbn [de_fields map obj_get String.eqb Ascii.eqb Bool.eqb rbind nth_fld nth f_req].
    rewrite de_list_strs. reflexivity.
  - reflexivity.
  - reflexivity.
  - specialize (H j eq_refl). unfold cf_of_json. destruct j as [| | | | | |m]; try reflexivity.
    destruct m as [|[k v] [|x r]]; try reflexivity. exfalso. now apply (H k v).
Qed.

Example c63_claim_format_ex :
  cf_of_json (JObj [("jwt_vc_json", JObj [("alg_values_supported", JArr [JStr "ES256"])])]) = Ok (CfJwtVcJson ["ES256"])
  /\ cf_designation (CfOther (JObj [("ac_vc", JNull)])) = OtherFormat "ac_vc".
Proof. split; reflexivity. Qed.

(** C63: the designation of a [ClaimFormat] that was read is named by the first member of the JSON object, or "other" if there is
    none.  It is one of the four known ones only if that is the only member and, for JWT and LD credentials, holds the list of
    texts asked for (as a member or as the only element of an array). *)
Lemma c63_designation_pf :
  forall (j : json) (c : claim_format),
    cf_of_json j = Ok c ->
    match j with
    | JObj ((k, v) :: r) =>
        let holds field := exists l, (exists m, v = JObj m /\ obj_get field m = Some (JArr (map JStr l))) \/ v = JArr [JArr (map JStr l)] in
        name (cf_designation c) = k
        /\ (cf_designation c = OtherFormat k
            <-> r <> [] \/ ~ In k ["jwt_vc_json"; "ldp_vc"; "mso_mdoc"; "dc+sd-jwt"]
               \/ k = "jwt_vc_json" /\ ~ holds "alg_values_supported" \/ k = "ldp_vc" /\ ~ holds "proof_type")
        /\ (canonical_designation (cf_designation c) \/ cf_designation c = OtherFormat k)
    | _ => cf_designation c = OtherFormat "other"
    end.
Proof.
  intros j c H. destruct j as [| | | | | |m]; try (injection H as <-; reflexivity).
  destruct m as [|[k v] r]; [injection H as <-; reflexivity|]. intros holds.
  assert (Hf : forall f, match (let? fs := de_fields [f] v in f_req (de_list de_str) (nth_fld 0 fs)) with
                 | Ok l => Some l | Err _ => None end = None <-> ~ holds f).
  { intros f. subst holds. cbn beta. split.
    - intros E [l [(m & -> & G)| ->]].
      + cbn [de_fields map rbind nth_fld nth] in E. rewrite G in E. cbn [f_req] in E. change (JArr (map JStr l)) with (jstrs l) in E.
        rewrite de_list_strs in E. discriminate E.
      + cbn [de_fields length Nat.leb arr_fields rbind nth_fld nth f_req] in E. change (JArr (map JStr l)) with (jstrs l) in E.
        rewrite de_list_strs in E. discriminate E.
    - intros E. destruct (let? fs := de_fields [f] v in f_req (de_list de_str) (nth_fld 0 fs)) as [l|e] eqn:G; [|reflexivity].
      exfalso. apply E. exists l. apply rbind_ok in G. destruct G as (fs & G1 & G2).
      assert (W : forall x, de_list de_str x = Ok l -> x = JArr (map JStr l)) by exact (fun x Q => de_list_de_str x l Q).
      destruct v as [| | | | |a|m]; try discriminate G1.
      + cbn [de_fields length] in G1. destruct a as [|x [|y a]]; cbn in G1; try discriminate G1; injection G1 as <-; cbn in G2;
          [discriminate G2|]. right. now rewrite (W x G2).
      + cbn [de_fields map] in G1. injection G1 as <-. cbn [nth_fld nth f_req] in G2. left. exists m. split; [reflexivity|].
        destruct (obj_get f m) as [x|]; [|discriminate G2]. cbn [f_req] in G2. now rewrite (W x G2). }
  destruct r as [|x r].
  2:{ injection H as <-. cbn [cf_designation]. split; [reflexivity|]. split; [|right; reflexivity]. split; [|reflexivity]. intros _. left. discriminate. }
  cbn [cf_of_json] in H. unfold cf_tagged in H.
  pose proof (Hf "alg_values_supported") as F1. pose proof (Hf "proof_type") as F2. clear Hf. clearbody holds.
  assert (Hk : forall a b : string, String.eqb a b = false -> a <> b) by (intros a b E Q; apply String.eqb_neq in E; now apply E).
  unfold FORMAT_JWT_VC_JSON, FORMAT_LDP_VC, FORMAT_MSO_MDOC, FORMAT_DC_SD_JWT in H.
  destruct (String.eqb k "jwt_vc_json") eqn:E1.
  { apply String.eqb_eq in E1. subst k.
    destruct (match (let? fs := de_fields ["alg_values_supported"] v in f_req (de_list de_str) (nth_fld 0 fs)) with
                 | Ok l => Some l | Err _ => None end) as [l|] eqn:L; cbn [option_map] in H; injection H as <-; cbn [cf_designation name canonical_designation].
    - split; [reflexivity|]. split; [|left; exact I]. split; [discriminate|]. intros [Q|[Q|[[_ Q]|[Q _]]]].
      + now contradiction Q.
      + contradiction Q. now left.
      + apply F1 in Q. discriminate Q.
      + discriminate Q.
    - split; [reflexivity|]. split; [|right; reflexivity]. split; [|reflexivity]. intros _. right. right. left. split; [reflexivity|]. now apply F1. }
  destruct (String.eqb k "ldp_vc") eqn:E2.
  { apply String.eqb_eq in E2. subst k.
    destruct (match (let? fs := de_fields ["proof_type"] v in f_req (de_list de_str) (nth_fld 0 fs)) with
                 | Ok l => Some l | Err _ => None end) as [l|] eqn:L; cbn [option_map] in H; injection H as <-; cbn [cf_designation name canonical_designation].
    - split; [reflexivity|]. split; [|left; exact I]. split; [discriminate|]. intros [Q|[Q|[[Q _]|[_ Q]]]].
      + now contradiction Q.
      + contradiction Q. right. now left.
      + discriminate Q.
      + apply F2 in Q. discriminate Q.
    - split; [reflexivity|]. split; [|right; reflexivity]. split; [|reflexivity]. intros _. right. right. right. split; [reflexivity|]. now apply F2. }
  destruct (String.eqb k "mso_mdoc") eqn:E3.
  { apply String.eqb_eq in E3. subst k. injection H as <-. split; [reflexivity|]. split; [|left; exact I]. split; [discriminate|].
    intros [Q|[Q|[[Q _]|[Q _]]]]; [now contradiction Q|contradiction Q; right; right; now left|discriminate Q|discriminate Q]. }
  destruct (String.eqb k "dc+sd-jwt") eqn:E4.
  { apply String.eqb_eq in E4. subst k. injection H as <-. split; [reflexivity|]. split; [|left; exact I]. split; [discriminate|].
    intros [Q|[Q|[[Q _]|[Q _]]]]; [now contradiction Q|contradiction Q; right; right; right; now left|discriminate Q|discriminate Q]. }
  injection H as <-. cbn [cf_designation]. split; [reflexivity|]. split; [|right; reflexivity]. split; [|reflexivity]. intros _. right. left.
  apply Hk in E1, E2, E3, E4. intros [Q|[Q|[Q|[Q|[]]]]]; symmetry in Q; contradiction.
Qed.

Example c63_designation_ex :
  rmap cf_designation (cf_of_json (JObj [("ldp_vc", JObj [("proof_type", JArr [JStr "DataIntegrityProof"])])])) = Ok LdpVc
  /\ rmap cf_designation (cf_of_json (JObj [("ac_vc", JNull); ("b", JNull)])) = Ok (OtherFormat "ac_vc")
  /\ rmap cf_designation (cf_of_json (JStr "ldp_vc")) = Ok (OtherFormat "other").
Proof. split; [|split]; reflexivity. Qed.

(** C63: a known format with an unusable payload is accepted, and its designation has the known name without being equal to the known
    designation. *)
Lemma c63_namesake_refuted_pf :
  exists j c, cf_of_json j = Ok c /\ name (cf_designation c) = name LdpVc /\ designation_eqb (cf_designation c) LdpVc = false.
Proof. exists (JObj [("ldp_vc", JObj [("proof_types", JArr [])])]). eexists. repeat split. Qed.

(** C63: reading a [ClaimFormat] drops unknown members of a known format. *)
Lemma c63_claim_format_lossy_refuted_pf :
  exists j c, cf_of_json j = Ok c /\ cf_to_json c <> j.
Proof.
  exists (JObj [("ldp_vc", JObj [("extra", JBool true); ("proof_type", JArr [JStr "DataIntegrityProof"])])]),
    (CfLdpVc ["DataIntegrityProof"]). split; [reflexivity|discriminate].
Qed.

(** C63: [add_alg] and [add_proof_type] append to the matching list and leave every other payload
    unchanged. *)
Lemma c63_add_pf :
  forall (a : string) (p : payload),
    (forall l, p = AlgValues l -> add_alg a p = AlgValues (l ++ [a]))
    /\ ((forall l, p <> AlgValues l) -> add_alg a p = p)
    /\ (forall l, p = ProofTypeValues l -> add_proof_type a p = ProofTypeValues (l ++ [a]))
    /\ ((forall l, p <> ProofTypeValues l) -> add_proof_type a p = p).
Proof.
  intros a p. destruct p as [l|l|j]; cbn; repeat split; try congruence; intros H; try (now destruct (H l));
    try reflexivity.
Qed.

Example c63_add_ex : add_alg "b" (AlgValues ["a"]) = AlgValues ["a"; "b"].
Proof. reflexivity. Qed.
