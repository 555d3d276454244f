(** Lemmas about [Base]. *)
From Verif Require Import Base.
From Coq Require Import Lia.

Lemma rbind_ok {A B} (r : res A) (f : A -> res B) b :
  rbind r f = Ok b -> exists a, r = Ok a /\ f a = Ok b.
Proof. destruct r; cbn; intros H; [eauto|discriminate]. Qed.

Lemma ok_or_ok {A} (o : option A) e a : ok_or o e = Ok a -> o = Some a.
Proof. destruct o; cbn; intros H; inversion H; reflexivity. Qed.

Lemma context_ok {A} (r : res A) e a : context r e = Ok a -> r = Ok a.
Proof. destruct r; cbn; intros H; inversion H; reflexivity. Qed.

Lemma of_bool_ok b e u : of_bool b e = Ok u -> b = true.
Proof. destruct b; cbn; intros H; [reflexivity|discriminate]. Qed.

Lemma sapp_nil_r s : s +:+ EmptyString = s.
Proof. induction s; cbn; congruence. Qed.

Lemma sapp_assoc a b c : (a +:+ b) +:+ c = a +:+ (b +:+ c).
Proof. induction a; cbn; congruence. Qed.

Lemma slen_app a b : String.length (a +:+ b) = String.length a + String.length b.
Proof. induction a; cbn; lia. Qed.

Lemma sapp_inv_head a b c : a +:+ b = a +:+ c -> b = c.
Proof. induction a; cbn; intros H; [exact H|]. inversion H; auto. Qed.

Lemma sapp_inv_len a : forall b c d,
  String.length a = String.length c -> a +:+ b = c +:+ d -> a = c /\ b = d.
Proof.
  induction a as [|x a IH]; intros b [|y c] d Hl H; cbn in *; try discriminate.
  - auto.
  - inversion H; subst. destruct (IH b c d) as [-> ->]; auto; lia.
Qed.

Lemma slen_rev_app s : forall acc, String.length (str_rev_app s acc) = String.length s + String.length acc.
Proof. induction s as [|c s IH]; intros acc; cbn; [reflexivity|]. rewrite IH; cbn; lia. Qed.

Lemma sapp_inv_tail a b c : a +:+ c = b +:+ c -> a = b.
Proof.
  intros H.
  assert (String.length a = String.length b).
  { apply (f_equal String.length) in H. rewrite !slen_app in H. lia. }
  apply (sapp_inv_len a c b c) in H; tauto.
Qed.

Lemma str_all_app f a b : str_all f (a +:+ b) = str_all f a && str_all f b.
Proof. induction a as [|c a IH]; cbn; [reflexivity|]. rewrite IH, andb_assoc; reflexivity. Qed.

Lemma str_all_impl (f g : ascii -> bool) s :
  (forall c, f c = true -> g c = true) -> str_all f s = true -> str_all g s = true.
Proof.
  intros Hfg; induction s as [|c s IH]; cbn; [reflexivity|].
  rewrite !andb_true_iff; intros [H1 H2]; auto.
Qed.

Lemma has_char_app c a b : has_char c (a +:+ b) = has_char c a || has_char c b.
Proof. induction a as [|d a IH]; cbn; [reflexivity|]. rewrite IH, orb_assoc; reflexivity. Qed.

Lemma has_char_all c (f : ascii -> bool) s :
  f c = false -> str_all f s = true -> has_char c s = false.
Proof.
  intros Hc; induction s as [|d s IH]; cbn; [reflexivity|].
  rewrite andb_true_iff; intros [H1 H2]. rewrite (IH H2), orb_false_r.
  destruct (Ascii.eqb_spec c d); [subst; congruence|reflexivity].
Qed.

(** [has_char] means what it says. *)
Lemma has_char_iff c s : has_char c s = true <-> exists a b, s = a +:+ String c b.
Proof.
  split.
  - induction s as [|d s IH]; cbn; [discriminate|].
    destruct (Ascii.eqb_spec c d) as [->|Hn]; cbn.
    + intros _. exists EmptyString, s; reflexivity.
    + intros H; destruct (IH H) as (a & b & ->). exists (String d a), b; reflexivity.
  - intros (a & b & ->). rewrite has_char_app; cbn. rewrite Ascii.eqb_refl; cbn.
    apply orb_true_r.
Qed.

Lemma split_once_some c s a b :
  split_once c s = Some (a, b) <-> s = a +:+ String c b /\ has_char c a = false.
Proof.
  revert a b; induction s as [|d s IH]; intros a b; cbn.
  - split; [discriminate|]. intros [H _]; destruct a; discriminate.
  - destruct (Ascii.eqb_spec c d) as [->|Hn].
    + split.
      * intros H; inversion H; subst; auto.
      * intros [H1 H2]. destruct a as [|x a]; cbn in H1; inversion H1; subst; [reflexivity|].
        cbn in H2. rewrite Ascii.eqb_refl in H2; discriminate.
    + destruct (split_once c s) as [[a' b']|] eqn:E.
      * split.
        -- intros H; inversion H; subst. destruct (proj1 (IH a' b) eq_refl) as [-> H2].
           cbn. split; [reflexivity|]. rewrite H2.
           destruct (Ascii.eqb_spec c d); [contradiction|reflexivity].
        -- intros [H1 H2]. destruct a as [|x a]; cbn in H1; inversion H1; subst; [contradiction|].
           cbn in H2; apply orb_false_iff in H2 as [_ H2].
           assert (Some (a', b') = Some (a, b)) as H by (apply IH; auto).
           inversion H; reflexivity.
      * split; [discriminate|]. intros [H1 H2].
        destruct a as [|x a]; cbn in H1; inversion H1; subst; [contradiction|].
        cbn in H2; apply orb_false_iff in H2 as [_ H2].
        assert (None = Some (a, b)) by (apply IH; auto). discriminate.
Qed.

Lemma split_once_none c s : split_once c s = None <-> has_char c s = false.
Proof.
  induction s as [|d s IH]; cbn; [tauto|].
  destruct (Ascii.eqb_spec c d) as [->|Hn]; cbn; [split; discriminate|].
  destruct (split_once c s) as [[a b]|]; split; intros H; try discriminate.
  - apply IH in H; discriminate.
  - apply IH; reflexivity.
  - reflexivity.
Qed.

Lemma rsplit_once_none c s : rsplit_once c s = None <-> has_char c s = false.
Proof.
  induction s as [|d s IH]; cbn; [tauto|].
  destruct (rsplit_once c s) as [[a b]|]; destruct (Ascii.eqb_spec c d) as [->|Hn]; cbn;
    split; intros H; try discriminate; try reflexivity.
  - apply IH in H; discriminate.
  - apply IH; reflexivity.
Qed.

Lemma rsplit_once_some c s a b :
  rsplit_once c s = Some (a, b) <-> s = a +:+ String c b /\ has_char c b = false.
Proof.
  revert a b; induction s as [|d s IH]; intros a b; cbn.
  - split; [discriminate|]. intros [H _]; destruct a; discriminate.
  - destruct (rsplit_once c s) as [[a' b']|] eqn:E.
    + split.
      * intros H; inversion H; subst. destruct (proj1 (IH a' b) eq_refl) as [-> H2]. auto.
      * intros [H1 H2]. destruct a as [|x a]; cbn in H1; inversion H1; subst.
        -- apply rsplit_once_none in H2. congruence.
        -- assert (Some (a', b') = Some (a, b)) as H by (apply IH; auto).
           inversion H; reflexivity.
    + destruct (Ascii.eqb_spec c d) as [->|Hn].
      * split.
        -- intros H; inversion H; subst. split; [reflexivity|]. apply rsplit_once_none; exact E.
        -- intros [H1 H2]. destruct a as [|x a]; cbn in H1; inversion H1; subst; [reflexivity|].
           assert (None = Some (a, b)) by (apply IH; auto). discriminate.
      * split; [discriminate|]. intros [H1 H2].
        destruct a as [|x a]; cbn in H1; inversion H1; subst; [contradiction|].
        assert (None = Some (a, b)) by (apply IH; auto). discriminate.
Qed.

Lemma strip_prefix_some p s r : strip_prefix p s = Some r <-> s = p +:+ r.
Proof.
  revert s r; induction p as [|a p IH]; intros s r; cbn.
  - split; [intros H; inversion H; reflexivity|intros ->; reflexivity].
  - destruct s as [|b s]; [split; discriminate|].
    destruct (Ascii.eqb_spec a b) as [->|Hn].
    + rewrite IH. split; [intros ->; reflexivity|intros H; inversion H; reflexivity].
    + split; [discriminate|]. intros H; inversion H; congruence.
Qed.

Lemma strip_prefix_app p r : strip_prefix p (p +:+ r) = Some r.
Proof. apply strip_prefix_some; reflexivity. Qed.

Lemma starts_with_iff p s : starts_with p s = true <-> exists r, s = p +:+ r.
Proof.
  unfold starts_with. destruct (strip_prefix p s) as [r|] eqn:E.
  - split; [|reflexivity]. intros _; exists r; apply strip_prefix_some; exact E.
  - split; [discriminate|]. intros [r Hr]. apply strip_prefix_some in Hr; congruence.
Qed.

Lemma has_sub_iff p s : has_sub p s = true <-> exists a b, s = a +:+ p +:+ b.
Proof.
  induction s as [|c s IH]; cbn [has_sub].
  - rewrite orb_false_r, starts_with_iff. split.
    + intros [r Hr]. exists EmptyString, r; exact Hr.
    + intros (a & b & H). destruct a; [exists b; exact H|discriminate].
  - rewrite orb_true_iff, starts_with_iff, IH. split.
    + intros [[r Hr]|(a & b & ->)].
      * exists EmptyString, r; exact Hr.
      * exists (String c a), b; reflexivity.
    + intros (a & b & H). destruct a as [|x a]; cbn in H.
      * left; exists b; exact H.
      * inversion H; subst. right; exists a, b; reflexivity.
Qed.

Lemma mem_str_iff x l : mem_str x l = true <-> In x l.
Proof.
  unfold mem_str. rewrite existsb_exists. split.
  - intros (y & Hy & E). apply String.eqb_eq in E; subst; exact Hy.
  - intros H; exists x; split; [exact H|apply String.eqb_refl].
Qed.

Lemma mapM_ok {A B} (f : A -> res B) l r :
  mapM f l = Ok r <-> Forall2 (fun x y => f x = Ok y) l r.
Proof.
  revert r; induction l as [|x l IH]; intros r; cbn.
  - split; [intros H; inversion H; constructor|intros H; inversion H; reflexivity].
  - split.
    + intros H. apply rbind_ok in H as (y & Hy & H). apply rbind_ok in H as (ys & Hys & H).
      inversion H; subst. constructor; [exact Hy|apply IH; exact Hys].
    + intros H; inversion H; subst. rewrite H2; cbn. apply IH in H4. rewrite H4; reflexivity.
Qed.

Lemma mapM_map {A B C} (f : B -> res C) (g : A -> B) l :
  mapM f (map g l) = mapM (fun x => f (g x)) l.
Proof. induction l as [|x l IH]; cbn; [reflexivity|]. rewrite IH; reflexivity. Qed.

Lemma mapM_id {A B} (f : B -> res A) (g : A -> B) l :
  Forall (fun x => f (g x) = Ok x) l -> mapM f (map g l) = Ok l.
Proof.
  induction 1 as [|x l Hx Hl IH]; cbn; [reflexivity|]. rewrite Hx; cbn. rewrite IH; reflexivity.
Qed.

(** Characters as numbers. *)
Lemma chr_byte c : chr (byte c) = c.
Proof. apply ascii_N_embedding. Qed.
Lemma byte_chr n : (n < 256)%N -> byte (chr n) = n.
Proof. apply N_ascii_embedding. Qed.
Lemma byte_lt c : (byte c < 256)%N.
Proof. apply N_ascii_bounded. Qed.
Lemma byte_inj a b : byte a = byte b -> a = b.
Proof. intros H. rewrite <- (chr_byte a), <- (chr_byte b), H; reflexivity. Qed.

(** Order on strings. *)
Lemma ascii_compare_refl a : Ascii.compare a a = Eq.
Proof. unfold Ascii.compare. apply N.compare_refl. Qed.

Lemma str_cmp_refl s : str_cmp s s = Eq.
Proof.
  unfold str_cmp. induction s as [|c s IH]; cbn; [reflexivity|].
  rewrite ascii_compare_refl; exact IH.
Qed.

Lemma str_cmp_eq a b : str_cmp a b = Eq <-> a = b.
Proof.
  split; [apply String.compare_eq_iff|intros ->; apply str_cmp_refl].
Qed.

Lemma str_cmp_antisym a b : str_cmp a b = CompOpp (str_cmp b a).
Proof. apply String.compare_antisym. Qed.

Lemma str_cmp_lt_trans a : forall b c,
  str_cmp a b = Lt -> str_cmp b c = Lt -> str_cmp a c = Lt.
Proof.
  unfold str_cmp.
  induction a as [|x a IH]; intros [|y b] [|z c]; cbn; try discriminate; try reflexivity.
  destruct (Ascii.compare x y) eqn:E1; try discriminate;
  destruct (Ascii.compare y z) eqn:E2; try discriminate; intros H1 H2.
  - apply Ascii.compare_eq_iff in E1, E2; subst. rewrite ascii_compare_refl. eapply IH; eauto.
  - apply Ascii.compare_eq_iff in E1; subst. rewrite E2; reflexivity.
  - apply Ascii.compare_eq_iff in E2; subst. rewrite E1; reflexivity.
  - assert (Ascii.compare x z = Lt) as ->; [|reflexivity].
    unfold Ascii.compare in *. rewrite N.compare_lt_iff in *. lia.
Qed.

Lemma str_cmp_gt a b : str_cmp a b = Gt <-> str_cmp b a = Lt.
Proof. rewrite (str_cmp_antisym a b). destruct (str_cmp b a); cbn; split; congruence. Qed.
