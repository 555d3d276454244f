(** JSON round trips of typed parameters. *)
From Coq Require Import Sorting.Permutation Lia ZifyBool.
From Verif Require Import Base BaseFacts Json JsonFacts Serde MapFacts Url Object Formats Params Dcql
  Response Spec.

Ltac nodup := apply str_nodup_dec; vm_compute; reflexivity.

(* ------------------------------------------------------------ names *)
Lemma mode_rt m : canonical_mode m -> mode_of_string (mode_to_string m) = m.
Proof.
  destruct m as [| | | |s]; try reflexivity. cbn [canonical_mode mode_to_string]. intros H.
  unfold mode_of_string.
  repeat match goal with
  | |- context [String.eqb s ?x] =>
      destruct (String.eqb_spec s x) as [E|_]; [exfalso; apply H; rewrite E; cbn; tauto|]
  end. reflexivity.
Qed.
Lemma mode_to_of s : mode_to_string (mode_of_string s) = s.
Proof.
  unfold mode_of_string.
  repeat match goal with
  | |- context [String.eqb s ?x] => destruct (String.eqb_spec s x) as [->|_]; [reflexivity|]
  end. reflexivity.
Qed.
Lemma rtype_rt t : canonical_type t -> rtype_of_string (rtype_to_string t) = t.
Proof.
  destruct t as [| |s]; try reflexivity. cbn [canonical_type rtype_to_string]. intros H.
  unfold rtype_of_string.
  repeat match goal with
  | |- context [String.eqb s ?x] =>
      destruct (String.eqb_spec s x) as [E|_]; [exfalso; apply H; rewrite E; cbn; tauto|]
  end. reflexivity.
Qed.
Lemma rtype_to_of s : rtype_to_string (rtype_of_string s) = s.
Proof.
  unfold rtype_of_string.
  repeat match goal with
  | |- context [String.eqb s ?x] => destruct (String.eqb_spec s x) as [->|_]; [reflexivity|]
  end. reflexivity.
Qed.
Lemma name_rt d : canonical_designation d -> from_name (name d) = d.
Proof.
  destruct d as [| | | |s]; try reflexivity. cbn [canonical_designation name]. intros H.
  unfold from_name, FORMAT_JWT_VC_JSON, FORMAT_LDP_VC, FORMAT_MSO_MDOC, FORMAT_DC_SD_JWT.
  repeat match goal with
  | |- context [String.eqb s ?x] =>
      destruct (String.eqb_spec s x) as [E|_]; [exfalso; apply H; rewrite E; cbn; tauto|]
  end. reflexivity.
Qed.
Lemma name_from s : name (from_name s) = s.
Proof.
  unfold from_name, FORMAT_JWT_VC_JSON, FORMAT_LDP_VC, FORMAT_MSO_MDOC, FORMAT_DC_SD_JWT.
  repeat match goal with
  | |- context [String.eqb s ?x] => destruct (String.eqb_spec s x) as [->|_]; [reflexivity|]
  end. reflexivity.
Qed.
Lemma from_name_canonical s : canonical_designation (from_name s).
Proof.
  unfold from_name, FORMAT_JWT_VC_JSON, FORMAT_LDP_VC, FORMAT_MSO_MDOC, FORMAT_DC_SD_JWT.
  repeat match goal with
  | |- context [String.eqb s ?x] => destruct (String.eqb_spec s x) as [->|?]; [exact I|]
  end. cbn. intuition congruence.
Qed.
Lemma designation_eqb_eq a b : designation_eqb a b = true <-> a = b.
Proof.
  destruct a, b; cbn; try (split; congruence). rewrite String.eqb_eq. split; congruence.
Qed.
Lemma designation_eqb_refl a : designation_eqb a a = true.
Proof. now apply designation_eqb_eq. Qed.

(* ------------------------------------------------------------ formats *)
Lemma mapM_de_str v l : mapM de_str v = Ok l -> v = map JStr l.
Proof.
  intros H. apply mapM_ok in H. induction H as [|x y v l H _ IH]; [reflexivity|].
  cbn [map]. rewrite <- IH. destruct x; cbn in H; try discriminate. congruence.
Qed.
Lemma de_list_de_str v l : de_list de_str v = Ok l -> v = jstrs l.
Proof.
  destruct v; cbn [de_list]; try discriminate. intros H. apply mapM_de_str in H. now subst.
Qed.

Lemma payload_rt p : canonical_payload p -> payload_of_json (payload_to_json p) = Ok p.
Proof.
  destruct p as [l|l|j]; intros H.
  - cbn [payload_to_json payload_of_json]. rewrite de_list_strs. reflexivity.
  - cbn [payload_to_json payload_of_json]. rewrite de_list_strs. reflexivity.
  - cbn [payload_to_json]. unfold payload_of_json. destruct j as [| | | | | |m]; try reflexivity.
    destruct m as [|[k v] [|x r]]; try reflexivity.
    destruct (de_list de_str v) as [l|e] eqn:E; [|reflexivity].
    apply de_list_de_str in E. subst v. cbn [canonical_payload] in H. specialize (H l) as [H1 H2].
    destruct (String.eqb_spec k "alg_values") as [->|_]; [now destruct H1|].
    destruct (String.eqb_spec k "proof_type_values") as [->|_]; [now destruct H2|].
    reflexivity.
Qed.
Lemma payload_of_canonical j p : payload_of_json j = Ok p -> canonical_payload p.
Proof.
  unfold payload_of_json. destruct j as [| | | | | |m];
    try (intros H; injection H as <-; intros ?; split; discriminate).
  destruct m as [|[k v] [|x r]]; try (intros H; injection H as <-; intros ?; split; discriminate).
  destruct (de_list de_str v) as [l|e] eqn:E.
  - destruct (String.eqb_spec k "alg_values") as [->|N1]; [intros H; injection H as <-; exact I|].
    destruct (String.eqb_spec k "proof_type_values") as [->|N2]; [intros H; injection H as <-; exact I|].
    intros H; injection H as <-. intros l'. split; congruence.
  - intros H; injection H as <-. intros l'. split; intros Q; injection Q as Q1 Q2; subst;
      unfold jstrs in *; cbn [de_list] in E; rewrite mapM_id in E; try discriminate;
      apply Forall_all; reflexivity.
Qed.
Lemma payload_to_of j p : payload_of_json j = Ok p -> payload_to_json p = j.
Proof.
  unfold payload_of_json. destruct j as [| | | | | |m]; try (intros H; injection H as <-; reflexivity).
  destruct m as [|[k v] [|x r]]; try (intros H; injection H as <-; reflexivity).
  destruct (de_list de_str v) as [l|e] eqn:E; [|intros H; injection H as <-; reflexivity].
  apply de_list_de_str in E. subst v.
  destruct (String.eqb_spec k "alg_values") as [->|N1]; [intros H; injection H as <-; reflexivity|].
  destruct (String.eqb_spec k "proof_type_values") as [->|N2]; intros H; injection H as <-; reflexivity.
Qed.
Lemma payload_of_total j : exists p, payload_of_json j = Ok p.
Proof.
  unfold payload_of_json. destruct j as [| | | | | |m]; eauto.
  destruct m as [|[k v] [|x r]]; eauto.
  destruct (de_list de_str v); eauto. destruct (String.eqb k _); eauto. destruct (String.eqb k _); eauto.
Qed.

Lemma fm_get_none d m : fm_get d m = None <-> ~ In d (map fst m).
Proof.
  induction m as [|[d' p] r IH]; cbn; [tauto|].
  destruct (designation_eqb d d') eqn:E.
  - apply designation_eqb_eq in E. subst. split; [discriminate|]. intros H. exfalso. auto.
  - rewrite IH. assert (d' <> d) by (intros ->; rewrite designation_eqb_refl in E; discriminate). tauto.
Qed.
Lemma fm_insert_fresh d p m : ~ In d (map fst m) -> fm_insert d p m = m ++ [(d, p)].
Proof.
  induction m as [|[d' q] r IH]; cbn; intros H; [reflexivity|].
  destruct (designation_eqb d d') eqn:E; [apply designation_eqb_eq in E; subst; tauto|].
  now rewrite IH by tauto.
Qed.
Lemma fm_fold_nodup l : forall acc, NoDup (map fst (acc ++ l)) ->
  fold_left (fun acc e => fm_insert (fst e) (snd e) acc) l acc = acc ++ l.
Proof.
  induction l as [|[d p] l IH]; intros acc H; cbn [fold_left]; [now rewrite app_nil_r|].
  cbn [fst snd]. rewrite fm_insert_fresh.
  - rewrite IH; rewrite <- app_assoc; [reflexivity|exact H].
  - rewrite map_app in H. cbn in H. apply NoDup_remove_2 in H. intros Hi. apply H. apply in_or_app. now left.
Qed.
Lemma fm_get_in d p m : NoDup (map fst m) -> In (d, p) m -> fm_get d m = Some p.
Proof.
  induction m as [|[d' q] r IH]; cbn; intros H Hi; [easy|].
  inversion H as [|? ? Hn Hd]; subst. destruct Hi as [Hi|Hi].
  - injection Hi as -> ->. now rewrite designation_eqb_refl.
  - destruct (designation_eqb d d') eqn:E; [|auto].
    apply designation_eqb_eq in E. subst. exfalso. apply Hn. now apply (in_map fst) in Hi.
Qed.
Lemma fm_get_some_in d p m : fm_get d m = Some p -> In (d, p) m.
Proof.
  induction m as [|[d' q] r IH]; cbn; [discriminate|].
  destruct (designation_eqb d d') eqn:E; [|auto].
  apply designation_eqb_eq in E. subst. intros H. injection H as <-. auto.
Qed.
Lemma fm_get_perm m m' d : Permutation m m' -> NoDup (map fst m) -> fm_get d m = fm_get d m'.
Proof.
  intros P H. assert (H' : NoDup (map fst m')).
  { eapply Permutation_NoDup; [|exact H]. now apply Permutation_map. }
  destruct (fm_get d m) as [p|] eqn:E.
  - apply fm_get_some_in in E. symmetry. apply fm_get_in; [exact H'|]. eapply Permutation_in; eauto.
  - symmetry. apply fm_get_none. apply fm_get_none in E. intros Hi. apply E.
    eapply Permutation_in; [|exact Hi]. apply Permutation_map. now symmetry.
Qed.

Lemma names_nodup m : format_map_ok m -> NoDup (map (fun e : designation * payload => name (fst e)) m).
Proof.
  intros [H F]. induction m as [|[d p] r IH]; cbn; [constructor|].
  cbn in H. inversion H as [|? ? Hn Hd]; subst. inversion F as [|? ? [Fc _] Fr]; subst.
  constructor; [|now apply IH]. intros Hi. apply in_map_iff in Hi as ([d' p'] & E & Hi). cbn in E.
  apply Hn. rewrite Forall_forall in Fr. specialize (Fr _ Hi) as [Fc' _]. cbn in *.
  apply (f_equal from_name) in E. rewrite !name_rt in E by assumption. subst.
  now apply (in_map fst) in Hi.
Qed.

Lemma format_map_rt m : format_map_ok m ->
  exists m', format_map_of_json (format_map_to_json m) = Ok m' /\ Permutation m m'.
Proof.
  intros Hok. pose proof (names_nodup _ Hok) as Hn. destruct Hok as [Hd F].
  unfold format_map_to_json, format_map_of_json.
  set (l := map (fun e : designation * payload => (name (fst e), payload_to_json (snd e))) m).
  assert (Hl : NoDup (map fst l)) by (unfold l; rewrite map_map; exact Hn).
  pose proof (obj_of_list_permutation l Hl) as P.
  set (f := fun kv : string * json => let? p := payload_of_json (snd kv) in Ok (from_name (fst kv), p)).
  assert (HM : mapM f l = Ok m).
  { unfold l. apply mapM_id. revert F. apply Forall_impl. intros [d p] [Hc Hp]. unfold f.
    cbn [fst snd] in *. rewrite payload_rt by assumption. cbn [rbind]. now rewrite name_rt. }
  destruct (mapM_perm f l (obj_of_list l)) with (r := m) as (r' & Hr & Hp); [now symmetry|exact HM|].
  exists r'. rewrite Hr. cbn [rbind]. split; [|exact Hp].
  rewrite fm_fold_nodup; [reflexivity|]. cbn [app].
  eapply Permutation_NoDup; [|exact Hd]. now apply Permutation_map.
Qed.

(* ------------------------------------------------------------ DCQL *)
Lemma de_ne_rt {A} (f : json -> res A) (g : A -> json) l :
  l <> [] -> Forall (fun a => f (g a) = Ok a) l -> de_ne f (ser_ne g l) = Ok l.
Proof.
  intros H F. unfold de_ne, ser_ne. rewrite de_list_map by exact F. cbn [rbind].
  destruct l; [contradiction|reflexivity].
Qed.
Lemma pe_rt p : path_elem_ok p -> pe_of_json (pe_to_json p) = Ok p.
Proof.
  destruct p as [s| |z]; try reflexivity. cbn [path_elem_ok pe_to_json pe_of_json]. intros H.
  unfold u64_max. replace ((0 <=? z)%Z && _) with true by lia. reflexivity.
Qed.
Lemma cv_rt v : claim_value_ok v -> cv_of_json (cv_to_json v) = Ok v.
Proof.
  destruct v as [s|z|b]; try reflexivity. cbn [claim_value_ok cv_to_json cv_of_json]. intros H.
  unfold i64_min, i64_max. replace (_ && _) with true by lia. reflexivity.
Qed.

Lemma f_opt_ne {A} (f : json -> res A) (g : A -> json) (P : A -> Prop) o :
  (forall a, P a -> f (g a) = Ok a) ->
  opt_all (nonempty_all P) o ->
  f_opt (de_ne f) (match option_map (ser_ne g) o with Some v => FVal v | None => FMissing end) = Ok o.
Proof.
  intros H Ho. apply f_opt_some.
  - intros l ->. destruct Ho as [Hn F]. apply de_ne_rt; [exact Hn|]. revert F. now apply Forall_impl.
  - intros l ->. discriminate.
Qed.
Lemma f_opt_bool o :
  f_opt de_bool (match option_map JBool o with Some v => FVal v | None => FMissing end) = Ok o.
Proof. apply f_opt_some; intros a _; [reflexivity|discriminate]. Qed.
Lemma f_opt_str o :
  f_opt de_str (match option_map JStr o with Some v => FVal v | None => FMissing end) = Ok o.
Proof. apply f_opt_some; intros a _; [reflexivity|discriminate]. Qed.

Ltac de_struct := rewrite de_fields_ser by nodup; cbn [rbind map assoc_opt String.eqb Ascii.eqb Bool.eqb nth_fld nth f_req f_dflt].

Lemma claims_rt c : claims_ok c -> claims_of_json (claims_to_json c) = Ok c.
Proof.
  intros [[Hn Hp] Hv]. unfold claims_of_json, claims_to_json. de_struct.
  rewrite f_opt_str. cbn [rbind].
  rewrite de_ne_rt; [|exact Hn|revert Hp; apply Forall_impl; apply pe_rt]. cbn [rbind].
  rewrite (f_opt_ne _ _ claim_value_ok) by (auto using cv_rt). cbn [rbind].
  rewrite f_opt_bool. cbn [rbind]. now destruct c.
Qed.
Lemma at_rt a : canonical_authority a -> at_of_json (at_to_json a) = Ok a.
Proof.
  destruct a as [| | |s]; try reflexivity. cbn [canonical_authority at_to_json at_of_json]. intros H.
  unfold at_tag.
  repeat match goal with
  | |- context [String.eqb s ?x] =>
      destruct (String.eqb_spec s x) as [E|_]; [exfalso; apply H; rewrite E; cbn; tauto|]
  end. reflexivity.
Qed.
Lemma auths_rt a : auths_ok a -> auths_of_json (auths_to_json a) = Ok a.
Proof.
  intros [Hc Hv]. unfold auths_of_json, auths_to_json. de_struct.
  rewrite at_rt by exact Hc. cbn [rbind].
  rewrite de_ne_rt; [|exact Hv|now apply Forall_all]. cbn [rbind]. now destruct a.
Qed.
Lemma sets_rt s : set_ok s -> sets_of_json (sets_to_json s) = Ok s.
Proof.
  intros H. unfold sets_of_json, sets_to_json. de_struct.
  rewrite de_ne_rt; [|exact H|apply Forall_all; apply de_list_strs]. cbn [rbind].
  rewrite f_opt_bool. cbn [rbind]. now destruct s.
Qed.
Lemma cred_rt c : cred_ok c -> cred_of_json (cred_to_json c) = Ok c.
Proof.
  intros (Hf & Hc & Hs & Ha). unfold cred_of_json, cred_to_json. de_struct.
  cbn [de_str as_str ok_or rbind].
  replace (designation_of_json (designation_to_json (cq_format c))) with (Ok (cq_format c))
    by (unfold designation_of_json, designation_to_json; cbn [de_str as_str ok_or rmap]; now rewrite name_rt).
  cbn [rbind de_obj as_obj ok_or].
  rewrite (f_opt_ne _ _ claims_ok) by (auto using claims_rt). cbn [rbind].
  rewrite (f_opt_ne _ _ (fun _ => True)).
  2:{ intros a _. apply de_list_strs. }
  2:{ destruct (cq_claim_sets c); [|exact I]. split; [exact Hs|now apply Forall_all]. }
  cbn [rbind].
  rewrite (f_opt_ne _ _ auths_ok) by (auto using auths_rt). cbn [rbind].
  rewrite !f_opt_bool. cbn [rbind]. now destruct c.
Qed.
Lemma dcql_rt q : dcql_ok q -> dcql_of_json (dcql_to_json q) = Ok q.
Proof.
  intros [[Hn Hc] Hs]. unfold dcql_of_json, dcql_to_json. de_struct.
  rewrite de_ne_rt; [|exact Hn|revert Hc; apply Forall_impl; apply cred_rt]. cbn [rbind].
  rewrite (f_opt_ne _ _ set_ok) by (auto using sets_rt). cbn [rbind]. now destruct q.
Qed.

(* ------------------------------------------------------------ VP token *)
Lemma vp_insert_fresh k l t : ~ In k (map fst t) -> vp_insert k l t = t ++ [(k, l)].
Proof.
  induction t as [|[k' l'] r IH]; cbn; intros H; [reflexivity|].
  destruct (String.eqb_spec k k') as [->|N]; [tauto|]. now rewrite IH by tauto.
Qed.
Lemma vp_fold_nodup l : forall acc, NoDup (map fst (acc ++ l)) ->
  fold_left (fun t e => vp_insert (fst e) (snd e) t) l acc = acc ++ l.
Proof.
  induction l as [|[k v] l IH]; intros acc H; cbn [fold_left]; [now rewrite app_nil_r|].
  cbn [fst snd]. rewrite vp_insert_fresh.
  - rewrite IH; rewrite <- app_assoc; [reflexivity|exact H].
  - rewrite map_app in H. cbn in H. apply NoDup_remove_2 in H. intros Hi. apply H. apply in_or_app. now left.
Qed.
Definition item_sorted (i : vp_item) : Prop :=
  match i with VpObject m => jsorted (JObj m) = true | VpString _ => True end.
Lemma item_rt i : item_sorted i -> item_of_json (normalize (item_to_json i)) = Ok i.
Proof.
  destruct i as [s|m]; intros H; [reflexivity|]. cbn [item_to_json].
  now rewrite normalize_sorted by exact H.
Qed.
Lemma vp_entries_rt t : vp_ok t -> Forall (fun e => Forall item_sorted (snd e)) t ->
  vp_of_entries (vp_members t) = Ok t.
Proof.
  intros Hn F. unfold vp_of_entries, vp_members.
  rewrite mapM_id.
  - cbn [rbind]. now rewrite vp_fold_nodup.
  - revert F. apply Forall_impl. intros [k l] F. cbn [fst snd] in *.
    rewrite de_list_map; [reflexivity|]. revert F. apply Forall_impl. apply item_rt.
Qed.
Lemma vp_json_rt t : vp_ok t -> Forall (fun e => Forall item_sorted (snd e)) t ->
  exists t', vp_of_json (vp_to_json t) = Ok t' /\ Permutation t t'.
Proof.
  intros Hn F. pose proof (vp_entries_rt t Hn F) as R. unfold vp_of_json, vp_to_json, vp_of_entries in *.
  set (f := fun kv : string * json => let? is := de_list (fun j => item_of_json (normalize j)) (snd kv) in
                            Ok (fst kv, is)) in *.
  assert (HM : mapM f (vp_members t) = Ok t).
  { unfold vp_members. apply mapM_id. revert F. apply Forall_impl. intros [k l] F. unfold f. cbn [fst snd] in *.
    rewrite de_list_map; [reflexivity|]. revert F. apply Forall_impl. apply item_rt. }
  assert (Hd : NoDup (map fst (vp_members t))).
  { unfold vp_members. rewrite map_map. exact Hn. }
  pose proof (obj_of_list_permutation _ Hd) as P.
  destruct (mapM_perm f (vp_members t) (obj_of_list (vp_members t))) with (r := t) as (r' & Hr & Hp);
    [now symmetry|exact HM|].
  exists r'. rewrite Hr. cbn [rbind]. split; [|exact Hp]. rewrite vp_fold_nodup; [reflexivity|].
  cbn [app]. eapply Permutation_NoDup; [|exact Hn]. now apply Permutation_map.
Qed.

(* ------------------------------------------------------------ JWKs *)
Lemma jwks_rt ks : tp_of p_jwks (JObj [("keys", JArr (map JObj ks))]) = Ok ks.
Proof.
  unfold p_jwks. cbn [tp_of]. cbn [de_fields map obj_get String.eqb Ascii.eqb Bool.eqb rbind nth_fld nth f_req].
  apply de_list_map. now apply Forall_all.
Qed.
