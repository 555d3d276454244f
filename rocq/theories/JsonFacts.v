(** Lemmas about JSON objects and values. *)
From Verif Require Import Base BaseFacts Utf8 Json.
From Coq Require Import Lia Sorting.Sorted Sorting.Permutation.

(* ------------------------------------------------------------ induction *)
Section JInd.
  Variable P : json -> Prop.
  Hypothesis Hnull : P JNull.
  Hypothesis Hbool : forall b, P (JBool b).
  Hypothesis Hint : forall z, P (JInt z).
  Hypothesis Hfloat : forall l, P (JFloat l).
  Hypothesis Hstr : forall s, P (JStr s).
  Hypothesis Harr : forall l, Forall P l -> P (JArr l).
  Hypothesis Hobj : forall m, Forall (fun kv => P (snd kv)) m -> P (JObj m).
  Fixpoint json_ind' (j : json) : P j :=
    match j with
    | JNull => Hnull
    | JBool b => Hbool b
    | JInt z => Hint z
    | JFloat l => Hfloat l
    | JStr s => Hstr s
    | JArr l => Harr l ((fix go l : Forall P l :=
                           match l with [] => Forall_nil _ | x :: r => Forall_cons _ (json_ind' x) (go r) end) l)
    | JObj m => Hobj m ((fix go m : Forall (fun kv => P (snd kv)) m :=
                           match m with
                           | [] => Forall_nil _
                           | kv :: r => Forall_cons _ (json_ind' (snd kv)) (go r)
                           end) m)
    end.
End JInd.

(* ------------------------------------------------------------ objects *)
Definition klt (a b : string * json) : Prop := str_cmp (fst a) (fst b) = Lt.
Definition ksorted (m : obj) : Prop := StronglySorted klt m.

Lemma keys_sorted_iff m : keys_sorted m = true <-> ksorted m.
Proof.
  unfold ksorted. induction m as [|[k v] m IH]; cbn.
  - split; [constructor|reflexivity].
  - destruct m as [|[k' v'] m].
    + split; [intros _; repeat constructor|reflexivity].
    + destruct (str_cmp k k') eqn:E.
      * split; [discriminate|]. intros H; inversion H as [|? ? _ HF]; subst.
        inversion HF; subst. unfold klt in *; cbn in *; congruence.
      * rewrite IH. split; intros H.
        -- constructor; [exact H|]. constructor; [exact E|].
           inversion H as [|? ? _ HF]; subst. eapply Forall_impl; [|exact HF].
           intros [k2 v2]; unfold klt; cbn. intros H2. eapply str_cmp_lt_trans; eauto.
        -- inversion H; subst; assumption.
      * split; [discriminate|]. intros H; inversion H as [|? ? _ HF]; subst.
        inversion HF; subst. unfold klt in *; cbn in *; congruence.
Qed.

Lemma obj_get_insert_eq k v m : obj_get k (obj_insert k v m) = Some v.
Proof.
  induction m as [|[k' v'] m IH]; cbn.
  - rewrite String.eqb_refl; reflexivity.
  - destruct (str_cmp k k') eqn:E; cbn; rewrite ?String.eqb_refl; try reflexivity.
    destruct (String.eqb_spec k k') as [->|Hn]; [|exact IH].
    rewrite str_cmp_refl in E; discriminate.
Qed.

Lemma obj_get_insert_neq k k' v m : k <> k' -> obj_get k (obj_insert k' v m) = obj_get k m.
Proof.
  intros Hn. induction m as [|[k2 v2] m IH]; cbn.
  - destruct (String.eqb_spec k k'); [contradiction|reflexivity].
  - destruct (str_cmp k' k2) eqn:E; cbn.
    + apply str_cmp_eq in E; subst. destruct (String.eqb_spec k k2); [contradiction|reflexivity].
    + destruct (String.eqb_spec k k'); [contradiction|reflexivity].
    + destruct (String.eqb_spec k k2); [reflexivity|exact IH].
Qed.

Lemma obj_get_insert k k' v m :
  obj_get k (obj_insert k' v m) = if String.eqb k k' then Some v else obj_get k m.
Proof.
  destruct (String.eqb_spec k k') as [->|Hn].
  - apply obj_get_insert_eq.
  - apply obj_get_insert_neq; exact Hn.
Qed.

Lemma obj_get_remove_neq k k' m : k <> k' -> obj_get k (obj_remove k' m) = obj_get k m.
Proof.
  intros Hn. induction m as [|[k2 v2] m IH]; cbn; [reflexivity|].
  destruct (String.eqb_spec k' k2) as [->|H2]; cbn.
  - destruct (String.eqb_spec k k2); [contradiction|reflexivity].
  - destruct (String.eqb_spec k k2); [reflexivity|exact IH].
Qed.

Lemma obj_get_none k m : obj_get k m = None <-> ~ In k (map fst m).
Proof.
  induction m as [|[k2 v2] m IH]; cbn; [tauto|].
  destruct (String.eqb_spec k k2) as [->|Hn].
  - split; [discriminate|]. intros H; exfalso; auto.
  - rewrite IH. split; intros H; [intros [E|E]; [congruence|auto]|auto].
Qed.

Lemma obj_get_in k v m : obj_get k m = Some v -> In (k, v) m.
Proof.
  induction m as [|[k2 v2] m IH]; cbn; [discriminate|].
  destruct (String.eqb_spec k k2) as [->|Hn]; intros H.
  - inversion H; subst; auto.
  - auto.
Qed.

Lemma ksorted_get_in k v m : ksorted m -> In (k, v) m -> obj_get k m = Some v.
Proof.
  unfold ksorted. induction 1 as [|[k2 v2] m Hs IH HF]; cbn; [tauto|].
  intros [E|Hin].
  - inversion E; subst. rewrite String.eqb_refl; reflexivity.
  - destruct (String.eqb_spec k k2) as [->|Hn]; [|auto].
    rewrite Forall_forall in HF. specialize (HF _ Hin). unfold klt in HF; cbn in HF.
    rewrite str_cmp_refl in HF; discriminate.
Qed.

Lemma ksorted_head_fresh k v m : ksorted ((k, v) :: m) -> obj_get k m = None.
Proof.
  intros H; inversion H as [|? ? _ HF]; subst. apply obj_get_none.
  intros Hin. apply in_map_iff in Hin as ([k2 v2] & E & Hin). cbn in E; subst.
  rewrite Forall_forall in HF. specialize (HF _ Hin). unfold klt in HF; cbn in HF.
  rewrite str_cmp_refl in HF; discriminate.
Qed.

Lemma obj_get_remove_eq k m : ksorted m -> obj_get k (obj_remove k m) = None.
Proof.
  unfold ksorted. induction 1 as [|[k2 v2] m Hs IH HF]; cbn; [reflexivity|].
  destruct (String.eqb_spec k k2) as [->|Hn].
  - apply (ksorted_head_fresh k2 v2). constructor; assumption.
  - cbn. destruct (String.eqb_spec k k2); [contradiction|exact IH].
Qed.

Lemma Forall_obj_insert (P : string * json -> Prop) k v m :
  P (k, v) -> Forall P m -> Forall P (obj_insert k v m).
Proof.
  intros HP; induction 1 as [|[k2 v2] m H2 HF IH]; cbn.
  - constructor; [exact HP|constructor].
  - destruct (str_cmp k k2) eqn:E.
    + constructor; assumption.
    + constructor; [exact HP|]. constructor; assumption.
    + constructor; assumption.
Qed.

Lemma ksorted_insert k v m : ksorted m -> ksorted (obj_insert k v m).
Proof.
  unfold ksorted. induction 1 as [|[k2 v2] m Hs IH HF]; cbn.
  - repeat constructor.
  - destruct (str_cmp k k2) eqn:E.
    + apply str_cmp_eq in E; subst. constructor; [exact Hs|].
      eapply Forall_impl; [|exact HF]. intros [k3 v3]; unfold klt; cbn; auto.
    + constructor; [constructor; assumption|]. constructor; [exact E|].
      eapply Forall_impl; [|exact HF]. intros [k3 v3]; unfold klt; cbn.
      intros H3; eapply str_cmp_lt_trans; eauto.
    + constructor; [exact IH|]. apply Forall_obj_insert; [|exact HF].
      unfold klt; cbn. apply str_cmp_gt; exact E.
Qed.

Lemma Forall_obj_remove (P : string * json -> Prop) k m :
  Forall P m -> Forall P (obj_remove k m).
Proof.
  induction 1 as [|[k2 v2] m H2 HF IH]; cbn; [constructor|].
  destruct (String.eqb k k2); [exact HF|constructor; assumption].
Qed.

Lemma ksorted_remove k m : ksorted m -> ksorted (obj_remove k m).
Proof.
  unfold ksorted. induction 1 as [|[k2 v2] m Hs IH HF]; cbn; [constructor|].
  destruct (String.eqb k k2); [exact Hs|]. constructor; [exact IH|].
  apply Forall_obj_remove; exact HF.
Qed.

Lemma ksorted_tail a m : ksorted (a :: m) -> ksorted m.
Proof. intros H; inversion H; assumption. Qed.

(** Two sorted objects with the same lookups are equal. *)
Lemma ksorted_ext m1 : forall m2,
  ksorted m1 -> ksorted m2 -> (forall k, obj_get k m1 = obj_get k m2) -> m1 = m2.
Proof.
  induction m1 as [|[k v] m1 IH]; intros [|[k2 v2] m2] H1 H2 He.
  - reflexivity.
  - specialize (He k2); cbn in He. rewrite String.eqb_refl in He; discriminate.
  - specialize (He k); cbn in He. rewrite String.eqb_refl in He; discriminate.
  - assert (k = k2) as <-.
    { assert (In (k, v) ((k2, v2) :: m2)) as A.
      { apply obj_get_in. rewrite <- He. cbn. rewrite String.eqb_refl; reflexivity. }
      assert (In (k2, v2) ((k, v) :: m1)) as B.
      { apply obj_get_in. rewrite He. cbn. rewrite String.eqb_refl; reflexivity. }
      destruct A as [A|A]; [inversion A; reflexivity|].
      destruct B as [B|B]; [inversion B; reflexivity|].
      inversion H1 as [|? ? _ F1]; inversion H2 as [|? ? _ F2]; subst.
      rewrite Forall_forall in F1, F2. specialize (F1 _ B); specialize (F2 _ A).
      unfold klt in *; cbn in *. pose proof (str_cmp_lt_trans _ _ _ F1 F2) as C.
      rewrite str_cmp_refl in C; discriminate. }
    assert (v = v2) as <-.
    { specialize (He k); cbn in He. rewrite String.eqb_refl in He; congruence. }
    f_equal. apply IH; [eapply ksorted_tail; eauto|eapply ksorted_tail; eauto|].
    intros k'. specialize (He k'); cbn in He.
    destruct (String.eqb_spec k' k) as [E|Hn]; [|exact He].
    apply ksorted_head_fresh in H1. apply ksorted_head_fresh in H2. congruence.
Qed.

(** Inserting a value that is already there changes nothing. *)
Lemma obj_insert_same k v m : ksorted m -> obj_get k m = Some v -> obj_insert k v m = m.
Proof.
  intros Hs Hg. apply ksorted_ext; [apply ksorted_insert; exact Hs|exact Hs|].
  intros k'. rewrite obj_get_insert. destruct (String.eqb_spec k' k) as [->|_]; congruence.
Qed.

Lemma obj_insert_twice k v v' m :
  ksorted m -> obj_insert k v (obj_insert k v' m) = obj_insert k v m.
Proof.
  intros Hs. apply ksorted_ext; repeat apply ksorted_insert; try exact Hs.
  intros k'. rewrite !obj_get_insert. destruct (String.eqb k' k); reflexivity.
Qed.

Lemma obj_insert_comm k v k' v' m :
  ksorted m -> k <> k' -> obj_insert k v (obj_insert k' v' m) = obj_insert k' v' (obj_insert k v m).
Proof.
  intros Hs Hn. apply ksorted_ext; repeat apply ksorted_insert; try exact Hs.
  intros q. rewrite !obj_get_insert.
  destruct (String.eqb_spec q k) as [->|]; [|reflexivity].
  destruct (String.eqb_spec k k'); [contradiction|reflexivity].
Qed.

(* ------------------------------------------------------------ building objects *)
Definition ins1 (m : obj) (kv : string * json) : obj := obj_insert (fst kv) (snd kv) m.

Lemma obj_of_list_fold l : obj_of_list l = fold_left ins1 l [].
Proof. reflexivity. Qed.

Lemma ksorted_fold l : forall m, ksorted m -> ksorted (fold_left ins1 l m).
Proof.
  induction l as [|[k v] l IH]; intros m Hm; cbn; [exact Hm|].
  apply IH, ksorted_insert, Hm.
Qed.

Lemma ksorted_nil : ksorted [].
Proof. constructor. Qed.

Lemma ksorted_of_list l : ksorted (obj_of_list l).
Proof. apply ksorted_fold, ksorted_nil. Qed.

(** Last entry with the key. *)
Fixpoint last_get (k : string) (l : list (string * json)) : option json :=
  match l with
  | [] => None
  | (k', v) :: r => match last_get k r with
                    | Some w => Some w
                    | None => if String.eqb k k' then Some v else None
                    end
  end.

Lemma get_fold k l : forall m,
  obj_get k (fold_left ins1 l m) = match last_get k l with Some v => Some v | None => obj_get k m end.
Proof.
  induction l as [|[k' v] l IH]; intros m; cbn; [reflexivity|].
  rewrite IH. destruct (last_get k l); [reflexivity|].
  unfold ins1; cbn. rewrite obj_get_insert. destruct (String.eqb k k'); reflexivity.
Qed.

Lemma get_of_list k l : obj_get k (obj_of_list l) = last_get k l.
Proof. rewrite obj_of_list_fold, get_fold. destruct (last_get k l); reflexivity. Qed.

Lemma last_get_none k l : last_get k l = None <-> ~ In k (map fst l).
Proof.
  induction l as [|[k2 v2] l IH]; cbn; [tauto|].
  destruct (last_get k l) eqn:E.
  - split; [discriminate|]. intros H. exfalso. apply H. right.
    destruct (in_dec string_dec k (map fst l)) as [i|n]; [exact i|].
    apply IH in n; discriminate.
  - destruct (String.eqb_spec k k2) as [->|Hn].
    + split; [discriminate|]. intros H; exfalso; auto.
    + split; [|reflexivity]. intros _ [A|A]; [congruence|]. apply IH; auto.
Qed.

Lemma last_get_nodup k l : NoDup (map fst l) -> last_get k l = obj_get k l.
Proof.
  induction l as [|[k2 v2] l IH]; cbn; [reflexivity|]. intros H; inversion H; subst.
  rewrite IH by assumption.
  destruct (String.eqb_spec k k2) as [->|Hn].
  - assert (obj_get k2 l = None) as -> by (apply obj_get_none; assumption). reflexivity.
  - destruct (obj_get k l); reflexivity.
Qed.

Lemma ksorted_nodup m : ksorted m -> NoDup (map fst m).
Proof.
  unfold ksorted. induction 1 as [|[k v] m Hs IH HF]; cbn; [constructor|].
  constructor; [|exact IH]. intros Hin. apply in_map_iff in Hin as ([k2 v2] & E & Hin).
  cbn in E; subst. rewrite Forall_forall in HF. specialize (HF _ Hin). unfold klt in HF; cbn in HF.
  rewrite str_cmp_refl in HF; discriminate.
Qed.

Lemma obj_of_list_sorted m : ksorted m -> obj_of_list m = m.
Proof.
  intros Hs. apply ksorted_ext; [apply ksorted_of_list|exact Hs|].
  intros k. rewrite get_of_list. apply last_get_nodup, ksorted_nodup, Hs.
Qed.

(** Any reordering of duplicate-free entries builds the same map. *)
Lemma obj_get_perm l1 l2 k :
  Permutation l1 l2 -> NoDup (map fst l1) -> obj_get k l1 = obj_get k l2.
Proof.
  intros Hp Hn.
  assert (NoDup (map fst l2)) as Hn2.
  { eapply Permutation_NoDup; [|exact Hn]. apply Permutation_map; exact Hp. }
  assert (forall l v, NoDup (map fst l) -> In (k, v) l -> obj_get k l = Some v) as A.
  { clear. induction l as [|[k2 v2] l IH]; cbn; intros v Hn Hin; [contradiction|].
    inversion Hn; subst. destruct Hin as [E|Hin].
    - inversion E; subst. rewrite String.eqb_refl; reflexivity.
    - destruct (String.eqb_spec k k2) as [->|]; [|auto].
      exfalso. apply H1. apply in_map_iff. exists (k2, v); auto. }
  destruct (obj_get k l1) as [v|] eqn:E.
  - apply obj_get_in in E. symmetry. apply A; [exact Hn2|].
    eapply Permutation_in; eauto.
  - apply obj_get_none in E. symmetry. apply obj_get_none. intros Hin. apply E.
    eapply Permutation_in; [|exact Hin].
    apply Permutation_map. apply Permutation_sym; exact Hp.
Qed.

Lemma obj_of_list_perm l1 l2 :
  Permutation l1 l2 -> NoDup (map fst l1) -> obj_of_list l1 = obj_of_list l2.
Proof.
  intros Hp Hn. apply ksorted_ext; try apply ksorted_of_list.
  intros k. rewrite !get_of_list. rewrite !last_get_nodup.
  - apply obj_get_perm; assumption.
  - eapply Permutation_NoDup; [|exact Hn]. apply Permutation_map; exact Hp.
  - exact Hn.
Qed.

(* ------------------------------------------------------------ normalisation *)
Lemma normalize_sorted j : jsorted j = true -> normalize j = j.
Proof.
  induction j using json_ind'; cbn; intros Hs; try reflexivity.
  - f_equal. rewrite forallb_forall in Hs. rewrite Forall_forall in H.
    transitivity (map (fun x => x) l); [|apply map_id].
    apply map_ext_in. auto.
  - f_equal. apply andb_true_iff in Hs as [Hk Hs]. rewrite forallb_forall in Hs.
    rewrite Forall_forall in H.
    assert (map (fun kv : string * json => (fst kv, normalize (snd kv))) m = m) as ->.
    { transitivity (map (fun x : string * json => x) m); [|apply map_id].
      apply map_ext_in. intros [k v] Hin. cbn. f_equal.
      apply (H (k, v) Hin). apply (Hs (k, v) Hin). }
    apply obj_of_list_sorted, keys_sorted_iff, Hk.
Qed.

Lemma in_fold_ins x l : forall m, In x (fold_left ins1 l m) -> In x l \/ In x m.
Proof.
  assert (forall k v m, In x (obj_insert k v m) -> x = (k, v) \/ In x m) as A.
  { induction m as [|[k2 v2] m IH]; cbn; [intuition congruence|].
    destruct (str_cmp k k2); cbn; intuition congruence. }
  induction l as [|[k v] l IH]; intros m; cbn; [auto|].
  intros H; apply IH in H as [H|H]; [auto|]. apply A in H as [->|H]; auto.
Qed.

Lemma normalize_jsorted j : jsorted (normalize j) = true.
Proof.
  induction j using json_ind'; cbn; try reflexivity.
  - rewrite forallb_forall. intros x Hx. apply in_map_iff in Hx as (y & <- & Hy).
    rewrite Forall_forall in H; auto.
  - apply andb_true_iff; split.
    + apply keys_sorted_iff, ksorted_of_list.
    + rewrite forallb_forall. intros x Hx.
      apply in_fold_ins in Hx as [Hx|[]]. apply in_map_iff in Hx as ([k v] & <- & Hy).
      rewrite Forall_forall in H. cbn. apply (H (k, v)); exact Hy.
Qed.

Lemma normalize_idem j : normalize (normalize j) = normalize j.
Proof. apply normalize_sorted, normalize_jsorted. Qed.

Lemma jsorted_obj m : jsorted (JObj m) = true -> ksorted m.
Proof. cbn. rewrite andb_true_iff. intros [H _]. apply keys_sorted_iff; exact H. Qed.

Lemma jsorted_get m k v : jsorted (JObj m) = true -> obj_get k m = Some v -> jsorted v = true.
Proof.
  cbn. rewrite andb_true_iff, forallb_forall. intros [_ H] Hg.
  apply obj_get_in in Hg. apply (H (k, v)); exact Hg.
Qed.

Lemma jsorted_insert m k v :
  jsorted (JObj m) = true -> jsorted v = true -> jsorted (JObj (obj_insert k v m)) = true.
Proof.
  cbn. rewrite !andb_true_iff. intros [H1 H2] Hv. split.
  - apply keys_sorted_iff, ksorted_insert, keys_sorted_iff, H1.
  - apply forallb_forall. rewrite <- Forall_forall. apply Forall_obj_insert; [exact Hv|].
    rewrite Forall_forall. apply forallb_forall; exact H2.
Qed.

(* ------------------------------------------------------------ decidable equality *)
Lemma json_eq_dec (a b : json) : {a = b} + {a <> b}.
Proof.
  revert a b. fix IH 1.
  assert (forall x y : list json, {x = y} + {x <> y}) as Hl.
  { fix IHl 1. intros [|x xs] [|y ys]; try (left; reflexivity); try (right; discriminate).
    destruct (IH x y) as [->|n]; [|right; congruence].
    destruct (IHl xs ys) as [->|n]; [left; reflexivity|right; congruence]. }
  assert (forall x y : obj, {x = y} + {x <> y}) as Ho.
  { fix IHo 1. intros [|[k x] xs] [|[k2 y] ys]; try (left; reflexivity); try (right; discriminate).
    destruct (string_dec k k2) as [->|n]; [|right; congruence].
    destruct (IH x y) as [->|n]; [|right; congruence].
    destruct (IHo xs ys) as [->|n]; [left; reflexivity|right; congruence]. }
  intros [|b1|z1|l1|x1|l1|m1] [|b2|z2|l2|x2|l2|m2]; try (left; reflexivity); try (right; discriminate).
  - destruct (bool_dec b1 b2) as [->|n]; [left; reflexivity|right; congruence].
  - destruct (Z.eq_dec z1 z2) as [->|n]; [left; reflexivity|right; congruence].
  - destruct (string_dec l1 l2) as [->|n]; [left; reflexivity|right; congruence].
  - destruct (string_dec x1 x2) as [->|n]; [left; reflexivity|right; congruence].
  - destruct (Hl l1 l2) as [->|n]; [left; reflexivity|right; congruence].
  - destruct (Ho m1 m2) as [->|n]; [left; reflexivity|right; congruence].
Qed.
