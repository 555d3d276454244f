From Coq Require Import Lia ZArith.
From Verif Require Import Base BaseFacts Json JsonFacts Serde MapFacts Object Formats Params Dcql Spec SpecObject ParamFacts PfDcql SpecDcql.

(* --------------------------------------------------------------------- C87 *)
Definition reads {A} (f : json -> res A) (R : json -> A -> Prop) : Prop := forall j a, f j = Ok a <-> R j a.
Lemma reads_str : reads de_str is_text.
Proof. intros j a. unfold is_text, de_str. destruct j; cbn; split; intros H; try discriminate; congruence. Qed.
Lemma reads_flag : reads de_bool is_flag.
Proof. intros j a. unfold is_flag, de_bool. destruct j; cbn; split; intros H; try discriminate; congruence. Qed.
Lemma forall2_iff {A B} (P Q : A -> B -> Prop) l l' : (forall a b, P a b <-> Q a b) -> Forall2 P l l' <-> Forall2 Q l l'.
Proof. intros E. split; induction 1; constructor; auto; now apply E. Qed.
Lemma reads_list {A} (f : json -> res A) R : reads f R -> reads (de_list f) (is_list R).
Proof.
  intros H j l. unfold de_list, is_list. destruct j; try (split; [discriminate|intros (? & X & _); discriminate]).
  rewrite mapM_ok, (forall2_iff _ _ _ _ H). split; [eauto|]. intros (js & X & F). injection X as <-. exact F.
Qed.
Lemma reads_ne {A} (f : json -> res A) R : reads f R -> reads (de_ne f) (is_nonempty R).
Proof.
  intros H j l. unfold de_ne, is_nonempty. split.
  - intros E. apply rbind_ok in E as (l0 & E & T). apply (reads_list f R H) in E. destruct l0; [discriminate|]. injection T as <-. split; [exact E|discriminate].
  - intros (E & N). apply (reads_list f R H) in E. rewrite E. cbn. destruct l; [contradiction|reflexivity].
Qed.

Lemma arr_nth names : forall vs i k, length vs = length names -> NoDup names -> nth_error names i = Some k ->
  nth_fld i (arr_fields names vs) = match obj_get k (combine names vs) with Some v => FVal v | None => FMissing end.
Proof.
  induction names as [|n ns IH]; intros [|v vs] i k L N E; try discriminate; [destruct i; discriminate|].
  apply NoDup_cons_iff in N as [N1 N2]. cbn [arr_fields combine obj_get]. destruct i as [|i]; cbn in E.
  - injection E as ->. rewrite String.eqb_refl. reflexivity.
  - assert (k <> n) by (intros ->; apply nth_error_In in E; contradiction). destruct (String.eqb_spec k n); [contradiction|].
    unfold nth_fld in *. cbn [nth]. apply IH; auto.
Qed.
Lemma arr_short names : forall vs, (length vs < length names)%nat -> nth_fld (pred (length names)) (arr_fields names vs) = FShort.
Proof.
  induction names as [|n ns IH]; intros vs L; [cbn in L; lia|]. destruct vs as [|v vs].
  - cbn [arr_fields]. clear L. cbn [length pred]. destruct ns as [|n' ns]; [reflexivity|]. unfold nth_fld in *. cbn [length nth].
    specialize (IH []). cbn [length pred] in IH. apply IH. cbn. lia.
  - cbn [arr_fields length pred] in *. destruct ns as [|n' ns]; [cbn in L; lia|]. unfold nth_fld in *. cbn [length nth].
    specialize (IH vs). cbn [length pred] in IH. apply IH. cbn in *. lia.
Qed.
(** Either the structure has its members, which the fields are; or the last field is missing, or it is none at all. *)
Inductive shape (names : list string) (j : json) : Prop :=
| Whole m fs : members_in names j m -> de_fields names j = Ok fs ->
    (forall i k, nth_error names i = Some k -> nth_fld i fs = match obj_get k m with Some v => FVal v | None => FMissing end) -> shape names j
| Short fs : (forall m, ~ members_in names j m) -> de_fields names j = Ok fs -> nth_fld (pred (length names)) fs = FShort -> shape names j
| NoStruct e : (forall m, ~ members_in names j m) -> de_fields names j = Err e -> shape names j.
Lemma shape_of names j : NoDup names -> shape names j.
Proof.
  intros N. destruct j as [|b|z|f|s|vs|m]; try (eapply NoStruct; [intros m [X|(? & X & _)]; discriminate X|reflexivity]).
  - destruct (Nat.leb (length vs) (length names)) eqn:L.
    + apply Nat.leb_le in L. destruct (Nat.eq_dec (length vs) (length names)) as [E|E].
      * eapply Whole with (m := combine names vs); [right; eauto| |].
        { cbn [de_fields]. rewrite E, Nat.leb_refl. reflexivity. }
        intros i k K. now apply arr_nth.
      * eapply Short; [intros m [X|(vs' & X & Y & _)]; [discriminate|injection X as <-; contradiction]| |].
        { cbn [de_fields]. apply Nat.leb_le in L. rewrite L. reflexivity. }
        apply arr_short. lia.
    + eapply NoStruct; [intros m [X|(vs' & X & Y & _)]; [discriminate|injection X as <-; rewrite Y, Nat.leb_refl in L; discriminate]|].
      cbn [de_fields]. rewrite L. reflexivity.
  - eapply Whole with (m := m); [now left|reflexivity|]. intros i k K. unfold nth_fld.
    apply nth_error_nth with (d := FMissing). rewrite nth_error_map, K. reflexivity.
Qed.
Lemma members_unique names j m m' : members_in names j m -> members_in names j m' -> m = m'.
Proof. intros [->|(vs & -> & _ & ->)] [X|(vs' & X & _ & Y)]; try discriminate; injection X as <-; congruence. Qed.

Definition fval (m : obj) (k : string) : fld := match obj_get k m with Some v => FVal v | None => FMissing end.
Lemma read_req {A} (f : json -> res A) R k m a : reads f R -> f_req f (fval m k) = Ok a <-> required R k m a.
Proof.
  intros H. unfold fval, required. destruct (obj_get k m) as [v|]; cbn.
  - rewrite (H v a). split; [eauto|]. intros (v' & X & Y). now injection X as <-.
  - split; [discriminate|]. intros (v' & X & _). discriminate.
Qed.
Lemma read_opt {A} (f : json -> res A) R k m o : reads f R -> f_opt f (fval m k) = Ok o <-> optional R k m o.
Proof.
  intros H. unfold fval, optional. destruct (obj_get k m) as [v|]; cbn [f_opt].
  - assert (D : v = JNull \/ v <> JNull) by (destruct v; auto; right; discriminate). destruct D as [->|D].
    + cbn. destruct o as [a|]; split; intros X; try discriminate; auto. destruct X as (v & X & Y & _). now injection X as <-.
    + assert (E : de_opt f v = rmap Some (f v)) by (destruct v; try reflexivity; contradiction). rewrite E. destruct o as [a|].
      * split; [|intros (v' & X & _ & Y); injection X as <-; apply H in Y; now rewrite Y].
        intros X. destruct (f v) as [b|] eqn:F; [|discriminate]. cbn in X. injection X as ->. exists v. split; [reflexivity|]. split; [exact D|]. now apply H.
      * split; [destruct (f v); discriminate|]. intros [X|X]; [discriminate|congruence].
  - destruct o as [a|]; split; intros X; try discriminate; auto. destruct X as (v & X & _). discriminate.
Qed.
Lemma read_meta k m (o : obj) : f_dflt [] de_obj (fval m k) = Ok o <-> obj_get k m = Some (JObj o) \/ obj_get k m = None /\ o = [].
Proof.
  unfold fval. destruct (obj_get k m) as [v|]; cbn [f_dflt].
  - unfold de_obj. destruct v; cbn; split; intros X; try discriminate; try (destruct X as [X|[X _]]; discriminate).
    + injection X as ->. now left.
    + destruct X as [X|[X _]]; [congruence|discriminate].
  - split; [intros X; injection X as <-; auto|intros [X|[_ ->]]; [discriminate|reflexivity]].
Qed.

Lemma reads_format : reads designation_of_json is_format.
Proof.
  intros j d. unfold designation_of_json, is_format. split.
  - intros H. destruct j as [| | | |s| |]; try discriminate H. cbn in H. injection H as <-. exists s. split; [reflexivity|]. unfold from_name.
    repeat (match goal with |- context [String.eqb s ?x] => destruct (String.eqb_spec s x) as [->|] end; [left; cbn; tauto|]).
    right. split; [reflexivity|]. cbn. intros H. repeat (destruct H as [H|H]; [symmetry in H; contradiction|]). exact H.
  - intros (s & -> & [H|(-> & N)]).
    + cbn in H. repeat (destruct H as [H|H]; [injection H as <- <-; reflexivity|]). destruct H.
    + cbn. f_equal. unfold from_name. cbn in N.
      repeat (match goal with |- context [String.eqb s ?x] => destruct (String.eqb_spec s x) as [->|]; [exfalso; apply N; tauto|] end). reflexivity.
Qed.
Lemma at_tag_iff s a : at_tag s = Some a <-> In (s, a) known_authorities.
Proof.
  unfold at_tag. split.
  - repeat (match goal with |- context [String.eqb s ?x] => destruct (String.eqb_spec s x) as [->|] end; [intros H; injection H as <-; cbn; tauto|]). discriminate.
  - cbn. intros H. repeat (destruct H as [H|H]; [injection H as <- <-; reflexivity|]). destruct H.
Qed.
Lemma at_tag_none s : at_tag s = None <-> ~ In s (map fst known_authorities).
Proof.
  destruct (at_tag s) as [a|] eqn:E.
  - split; [discriminate|]. intros N. exfalso. apply N. apply at_tag_iff in E. apply (in_map fst) in E. exact E.
  - split; [|reflexivity]. intros _ H. apply in_map_iff in H as ((s', a) & X & H). cbn in X. subst s'. apply at_tag_iff in H. congruence.
Qed.
Lemma reads_authority : reads at_of_json is_authority.
Proof.
  intros j a. unfold is_authority. split.
  - intros H. destruct j as [| | | |s| |m]; try discriminate H.
    + cbn in H. injection H as <-. exists s. destruct (at_tag s) as [b|] eqn:E; [left; split; [now left|now apply at_tag_iff]|]. right. split; [reflexivity|]. split; [reflexivity|].
      now apply at_tag_none.
    + cbn in H. destruct m as [|[k v] [|x m]]; [discriminate| |destruct v; discriminate]. destruct v; try discriminate. apply ok_or_ok in H. exists k. left. split; [now right|].
      now apply at_tag_iff.
  - intros (s & [[[-> | ->] H]|(-> & -> & N)]).
    + apply at_tag_iff in H. cbn. now rewrite H.
    + apply at_tag_iff in H. cbn. now rewrite H.
    + apply at_tag_none in N. cbn. now rewrite N.
Qed.
Lemma reads_path : reads pe_of_json is_path_element.
Proof.
  intros j a. unfold is_path_element, pe_of_json. destruct j as [| |z| |s| |].
  all: try (destruct a; cbn; split; intros H; try discriminate; try (destruct H; discriminate); congruence).
  destruct ((0 <=? z) && (z <=? u64_max))%Z eqn:E.
  - apply andb_prop in E as [E1 E2]. unfold u64_max in E2. destruct a; cbn; split; intros H; try discriminate.
    + injection H as <-. split; [reflexivity|]. lia.
    + destruct H as [H _]. congruence.
  - destruct a as [| |z']; cbn; split; intros H; try discriminate. destruct H as [H B]. injection H as ->.
    exfalso. apply Bool.andb_false_iff in E. unfold u64_max in E. destruct E; lia.
Qed.
Lemma reads_value : reads cv_of_json is_claim_value.
Proof.
  intros j a. unfold is_claim_value, cv_of_json. destruct j as [| |z| |s| |].
  all: try (destruct a; cbn; split; intros H; try discriminate; try (destruct H; discriminate); congruence).
  destruct ((i64_min <=? z) && (z <=? i64_max))%Z eqn:E.
  - apply andb_prop in E as [E1 E2]. unfold i64_min, i64_max in *. destruct a; cbn; split; intros H; try discriminate.
    + injection H as <-. split; [reflexivity|]. lia.
    + destruct H as [H _]. congruence.
  - destruct a as [|z'|]; cbn; split; intros H; try discriminate. destruct H as [H B]. injection H as ->.
    exfalso. apply Bool.andb_false_iff in E. unfold i64_min, i64_max in E. destruct E; lia.
Qed.

(** Every structure below is read field by field. *)
Ltac fields_of names :=
  intros j a; destruct (shape_of names j) as [m fs M F V|fs M F V|e M F];
  [apply str_nodup_dec; vm_compute; reflexivity | | |].
Lemma reads_claim : reads claims_of_json is_claim.
Proof.
  fields_of ["id"; "path"; "values"; "intent_to_retain"]; unfold claims_of_json, is_claim; rewrite F; cbn [rbind].
  - rewrite (V 0 _ eq_refl), (V 1 _ eq_refl), (V 2 _ eq_refl), (V 3 _ eq_refl). fold (fval m "id") (fval m "path") (fval m "values") (fval m "intent_to_retain"). split.
    + intros H. apply rbind_ok in H as (x1 & H1 & H). apply rbind_ok in H as (x2 & H2 & H). apply rbind_ok in H as (x3 & H3 & H). apply rbind_ok in H as (x4 & H4 & H).
      injection H as <-. exists m. split; [exact M|]. cbn [cl_id cl_path cl_values cl_intent].
      split; [now apply (read_opt _ _ _ _ _ reads_str)|]. split; [now apply (read_req _ _ _ _ _ (reads_ne _ _ reads_path))|].
      split; [now apply (read_opt _ _ _ _ _ (reads_ne _ _ reads_value))|]. now apply (read_opt _ _ _ _ _ reads_flag).
    + intros (m' & M' & H1 & H2 & H3 & H4). assert (m' = m) as -> by (eapply members_unique; eauto).
      apply (read_opt _ _ _ _ _ reads_str) in H1. apply (read_req _ _ _ _ _ (reads_ne _ _ reads_path)) in H2.
      apply (read_opt _ _ _ _ _ (reads_ne _ _ reads_value)) in H3. apply (read_opt _ _ _ _ _ reads_flag) in H4. rewrite H1, H2, H3, H4. now destruct a.
  - cbn in V. split; [|intros (m & X & _); now destruct (M m)]. intros H. apply rbind_ok in H as (x1 & H1 & H). apply rbind_ok in H as (x2 & H2 & H).
    apply rbind_ok in H as (x3 & H3 & H). apply rbind_ok in H as (x4 & H4 & H). rewrite V in H4. discriminate.
  - split; [discriminate|]. intros (m & X & _). now destruct (M m).
Qed.
Lemma reads_authorities : reads auths_of_json is_authorities.
Proof.
  fields_of ["type"; "values"]; unfold auths_of_json, is_authorities; rewrite F; cbn [rbind].
  - rewrite (V 0 _ eq_refl), (V 1 _ eq_refl). fold (fval m "type") (fval m "values"). split.
    + intros H. apply rbind_ok in H as (x1 & H1 & H). apply rbind_ok in H as (x2 & H2 & H). injection H as <-. exists m. split; [exact M|]. cbn [ta_type ta_values].
      split; [now apply (read_req _ _ _ _ _ reads_authority)|now apply (read_req _ _ _ _ _ (reads_ne _ _ reads_str))].
    + intros (m' & M' & H1 & H2). assert (m' = m) as -> by (eapply members_unique; eauto).
      apply (read_req _ _ _ _ _ reads_authority) in H1. apply (read_req _ _ _ _ _ (reads_ne _ _ reads_str)) in H2. rewrite H1, H2. now destruct a.
  - cbn in V. split; [|intros (m & X & _); now destruct (M m)]. intros H. apply rbind_ok in H as (x1 & H1 & H). apply rbind_ok in H as (x2 & H2 & H).
    rewrite V in H2. discriminate.
  - split; [discriminate|]. intros (m & X & _). now destruct (M m).
Qed.
Lemma reads_set : reads sets_of_json is_set.
Proof.
  fields_of ["options"; "required"]; unfold sets_of_json, is_set; rewrite F; cbn [rbind].
  - rewrite (V 0 _ eq_refl), (V 1 _ eq_refl). fold (fval m "options") (fval m "required"). split.
    + intros H. apply rbind_ok in H as (x1 & H1 & H). apply rbind_ok in H as (x2 & H2 & H). injection H as <-. exists m. split; [exact M|]. cbn [cs_options cs_required].
      split; [now apply (read_req _ _ _ _ _ (reads_ne _ _ (reads_list _ _ reads_str)))|now apply (read_opt _ _ _ _ _ reads_flag)].
    + intros (m' & M' & H1 & H2). assert (m' = m) as -> by (eapply members_unique; eauto).
      apply (read_req _ _ _ _ _ (reads_ne _ _ (reads_list _ _ reads_str))) in H1. apply (read_opt _ _ _ _ _ reads_flag) in H2. rewrite H1, H2. now destruct a.
  - cbn in V. split; [|intros (m & X & _); now destruct (M m)]. intros H. apply rbind_ok in H as (x1 & H1 & H). apply rbind_ok in H as (x2 & H2 & H).
    rewrite V in H2. discriminate.
  - split; [discriminate|]. intros (m & X & _). now destruct (M m).
Qed.
Lemma reads_credential : reads cred_of_json is_credential_query.
Proof.
  fields_of ["id"; "format"; "meta"; "claims"; "claim_sets"; "trusted_authorities"; "require_cryptographic_holder_binding"; "multiple"];
    unfold cred_of_json, is_credential_query; rewrite F; cbn [rbind].
  - rewrite (V 0 _ eq_refl), (V 1 _ eq_refl), (V 2 _ eq_refl), (V 3 _ eq_refl), (V 4 _ eq_refl), (V 5 _ eq_refl), (V 6 _ eq_refl), (V 7 _ eq_refl).
    fold (fval m "id") (fval m "format") (fval m "meta") (fval m "claims") (fval m "claim_sets") (fval m "trusted_authorities")
      (fval m "require_cryptographic_holder_binding") (fval m "multiple"). split.
    + intros H. apply rbind_ok in H as (x1 & H1 & H). apply rbind_ok in H as (x2 & H2 & H). apply rbind_ok in H as (x3 & H3 & H). apply rbind_ok in H as (x4 & H4 & H).
      apply rbind_ok in H as (x5 & H5 & H). apply rbind_ok in H as (x6 & H6 & H). apply rbind_ok in H as (x7 & H7 & H). apply rbind_ok in H as (x8 & H8 & H).
      injection H as <-. exists m. split; [exact M|].
      cbn [cq_id cq_format cq_meta cq_claims cq_claim_sets cq_auths cq_holder_binding cq_multiple].
      split; [now apply (read_req _ _ _ _ _ reads_str)|]. split; [now apply (read_req _ _ _ _ _ reads_format)|]. split; [now apply read_meta|].
      split; [now apply (read_opt _ _ _ _ _ (reads_ne _ _ reads_claim))|]. split; [now apply (read_opt _ _ _ _ _ (reads_ne _ _ (reads_list _ _ reads_str)))|].
      split; [now apply (read_opt _ _ _ _ _ (reads_ne _ _ reads_authorities))|]. split; now apply (read_opt _ _ _ _ _ reads_flag).
    + intros (m' & M' & H1 & H2 & H3 & H4 & H5 & H6 & H7 & H8). assert (m' = m) as -> by (eapply members_unique; eauto).
      apply (read_req _ _ _ _ _ reads_str) in H1. apply (read_req _ _ _ _ _ reads_format) in H2. apply read_meta in H3.
      apply (read_opt _ _ _ _ _ (reads_ne _ _ reads_claim)) in H4. apply (read_opt _ _ _ _ _ (reads_ne _ _ (reads_list _ _ reads_str))) in H5.
      apply (read_opt _ _ _ _ _ (reads_ne _ _ reads_authorities)) in H6. apply (read_opt _ _ _ _ _ reads_flag) in H7. apply (read_opt _ _ _ _ _ reads_flag) in H8.
      rewrite H1, H2, H3, H4, H5, H6, H7, H8. now destruct a.
  - cbn in V. split; [|intros (m & X & _); now destruct (M m)]. intros H.
    apply rbind_ok in H as (x1 & H1 & H). apply rbind_ok in H as (x2 & H2 & H). apply rbind_ok in H as (x3 & H3 & H). apply rbind_ok in H as (x4 & H4 & H).
    apply rbind_ok in H as (x5 & H5 & H). apply rbind_ok in H as (x6 & H6 & H). apply rbind_ok in H as (x7 & H7 & H). apply rbind_ok in H as (x8 & H8 & H).
    rewrite V in H8. discriminate.
  - split; [discriminate|]. intros (m & X & _). now destruct (M m).
Qed.

(** C87: a JSON value is read as a DCQL query exactly when it is one, member by member, and then as that query; unknown
    members are ignored. *)
Lemma c87_query_pf
  : forall (j : json) (q : dcql), dcql_of_json j = Ok q <-> is_query j q.
Proof.
  fields_of ["credentials"; "credential_sets"]; unfold dcql_of_json, is_query; rewrite F; cbn [rbind].
  - rewrite (V 0 _ eq_refl), (V 1 _ eq_refl). fold (fval m "credentials") (fval m "credential_sets"). split.
    + intros H. apply rbind_ok in H as (x1 & H1 & H). apply rbind_ok in H as (x2 & H2 & H). injection H as <-. exists m. split; [exact M|]. cbn [dq_credentials dq_sets].
      split; [now apply (read_req _ _ _ _ _ (reads_ne _ _ reads_credential))|now apply (read_opt _ _ _ _ _ (reads_ne _ _ reads_set))].
    + intros (m' & M' & H1 & H2). assert (m' = m) as -> by (eapply members_unique; eauto).
      apply (read_req _ _ _ _ _ (reads_ne _ _ reads_credential)) in H1. apply (read_opt _ _ _ _ _ (reads_ne _ _ reads_set)) in H2. rewrite H1, H2. now destruct a.
  - cbn in V. split; [|intros (m & X & _); now destruct (M m)]. intros H. apply rbind_ok in H as (x1 & H1 & H). apply rbind_ok in H as (x2 & H2 & H).
    rewrite V in H2. discriminate.
  - split; [discriminate|]. intros (m & X & _). now destruct (M m).
Qed.
Example c87_query_ex :
  dcql_of_json (JObj [("credentials", JArr [JObj [("format", JStr "mso_mdoc"); ("id", JStr "a"); ("x", JNull)]]);
                      ("credential_sets", JArr [JArr [JArr [JArr [JStr "a"]]; JNull]])])
  = Ok (mk_dcql [cred_new "a" MsoMDoc] (Some [mk_set [["a"]] None]))
  /\ is_ok (dcql_of_json (JObj [("credentials", JArr [JObj [("format", JStr "mso_mdoc"); ("id", JStr "a"); ("meta", JNull)]])])) = false
  /\ is_ok (dcql_of_json (JObj [("credentials", JArr [JObj [("format", JStr "mso_mdoc"); ("id", JStr "a"); ("claims", JArr [])]])])) = false.
Proof. vm_compute. repeat split. Qed.
