(** Facts about identifiers in text. *)
From Coq Require Import Lia ZArith.
From Verif Require Import Base BaseFacts Base64 Base64Facts JsonText Builder PfBuilder ExVerifier.
Lemma hexdig_val_sweep : forallb (fun d => match hex_val (hexdig d) with Some e => N.eqb d e | None => false end)
  [0;1;2;3;4;5;6;7;8;9;10;11;12;13;14;15]%N = true.
Proof. vm_compute. reflexivity. Qed.
Lemma hexdig_val d : (d < 16)%N -> hex_val (hexdig d) = Some d.
Proof.
  intros H. assert (E := proj1 (forallb_forall _ _) hexdig_val_sweep d (small_in d H)). cbn beta in E.
  destruct (hex_val (hexdig d)); [|discriminate]. apply N.eqb_eq in E. now subst.
Qed.
Lemma hex_fold_app a b acc : hex_fold (a +:+ b) acc = match hex_fold a acc with Some x => hex_fold b x | None => None end.
Proof. revert acc. induction a as [|c a IH]; intros acc; cbn; [reflexivity|]. destruct (hex_val c); [apply IH|reflexivity]. Qed.
Lemma hex_fold_digits n : forall x acc, hex_fold (hex_digits n x) acc = Some (acc * 16 ^ N.of_nat n + x mod 16 ^ N.of_nat n)%N.
Proof.
  induction n as [|n IH]; intros x acc; cbn [hex_digits].
  - cbn. rewrite N.mod_1_r. f_equal. lia.
  - rewrite hex_fold_app, IH. unfold s1. cbn [hex_fold]. rewrite hexdig_val by (apply N.mod_lt; lia). cbn [hex_fold]. f_equal.
    rewrite Nat2N.inj_succ, N.pow_succ_r', N.mod_mul_r by (try apply N.pow_nonzero; lia). lia.
Qed.
Lemma get_skip a b n : String.get (String.length a + n) (a +:+ b) = String.get n b.
Proof. induction a; cbn; auto. Qed.
Lemma substring_skip a b n m : substring (String.length a + n) m (a +:+ b) = substring n m b.
Proof. induction a; cbn; auto. Qed.
Lemma substring_take a b : substring 0 (String.length a) (a +:+ b) = a.
Proof. induction a; cbn; [now destruct b|]. now rewrite IHa. Qed.
Lemma pieces (h1 h2 h3 h4 h5 : string) :
  String.length h1 = 8 -> String.length h2 = 4 -> String.length h3 = 4 -> String.length h4 = 4 -> String.length h5 = 12 ->
  uuid_of_string (h1 +:+ "-" +:+ h2 +:+ "-" +:+ h3 +:+ "-" +:+ h4 +:+ "-" +:+ h5) = hex_fold (h1 +:+ h2 +:+ h3 +:+ h4 +:+ h5) 0.
Proof.
  intros L1 L2 L3 L4 L5.
  do 8 (destruct h1 as [|? h1]; [discriminate|]). destruct h1; [|discriminate].
  do 4 (destruct h2 as [|? h2]; [discriminate|]). destruct h2; [|discriminate].
  do 4 (destruct h3 as [|? h3]; [discriminate|]). destruct h3; [|discriminate].
  do 4 (destruct h4 as [|? h4]; [discriminate|]). destruct h4; [|discriminate].
  do 12 (destruct h5 as [|? h5]; [discriminate|]). destruct h5; [|discriminate].
  reflexivity.
Qed.
(** An identifier is read back from its text. *)
Lemma uuid_back u : (u < 2 ^ 128)%N -> uuid_of_string (uuid_str u) = Some u.
Proof.
  intros H. unfold uuid_str. rewrite pieces by apply hex_len. rewrite hex_fold_app.
  assert (E1 : ((u / 2 ^ 96) mod 2 ^ 32 = u / 2 ^ 96)%N) by (apply N.mod_small, N.div_lt_upper_bound; [discriminate|exact H]).
  assert (E2 : (u / 2 ^ 80 = (u / 2 ^ 96) * 2 ^ 16 + (u / 2 ^ 80) mod 2 ^ 16)%N).
  { rewrite (N.div_mod (u / 2 ^ 80) (2 ^ 16)) at 1 by discriminate. rewrite N.div_div by discriminate. change (2 ^ 80 * 2 ^ 16)%N with (2 ^ 96)%N. lia. }
  assert (E3 : (u / 2 ^ 64 = (u / 2 ^ 80) * 2 ^ 16 + (u / 2 ^ 64) mod 2 ^ 16)%N).
  { rewrite (N.div_mod (u / 2 ^ 64) (2 ^ 16)) at 1 by discriminate. rewrite N.div_div by discriminate. change (2 ^ 64 * 2 ^ 16)%N with (2 ^ 80)%N. lia. }
  assert (E4 : (u / 2 ^ 48 = (u / 2 ^ 64) * 2 ^ 16 + (u / 2 ^ 48) mod 2 ^ 16)%N).
  { rewrite (N.div_mod (u / 2 ^ 48) (2 ^ 16)) at 1 by discriminate. rewrite N.div_div by discriminate. change (2 ^ 48 * 2 ^ 16)%N with (2 ^ 64)%N. lia. }
  assert (E5 : (u = (u / 2 ^ 48) * 2 ^ 48 + u mod 2 ^ 48)%N).
  { rewrite (N.div_mod u (2 ^ 48)) at 1 by discriminate. lia. }
  assert (P4 : (16 ^ N.of_nat 4 = 2 ^ 16)%N) by reflexivity.
  assert (P8 : (16 ^ N.of_nat 8 = 2 ^ 32)%N) by reflexivity.
  assert (P12 : (16 ^ N.of_nat 12 = 2 ^ 48)%N) by reflexivity.
  rewrite hex_fold_digits, P8, E1, N.mul_0_l, N.add_0_l.
  rewrite hex_fold_app, hex_fold_digits, P4, <- E2.
  rewrite hex_fold_app, hex_fold_digits, P4, <- E3.
  rewrite hex_fold_app, hex_fold_digits, P4, <- E4.
  rewrite hex_fold_digits, P12, <- E5. reflexivity.
Qed.
Lemma hexval_small_sweep : forallb (fun c => match hex_val c with Some d => (d <? 16)%N | None => true end) all_ascii = true.
Proof. vm_compute. reflexivity. Qed.
Lemma hex_val_small c d : hex_val c = Some d -> (d < 16)%N.
Proof.
  intros H. assert (E := proj1 (forallb_forall _ _) hexval_small_sweep c (all_ascii_in c)). cbn beta in E. rewrite H in E. now apply N.ltb_lt.
Qed.
Lemma hex_fold_bound s : forall acc x, hex_fold s acc = Some x -> (x < (acc + 1) * 16 ^ N.of_nat (String.length s))%N.
Proof.
  induction s as [|c s IH]; intros acc x; cbn [hex_fold String.length].
  - intros [= <-]. cbn. lia.
  - destruct (hex_val c) as [d|] eqn:E; [|discriminate]. intros H. apply IH in H. apply hex_val_small in E.
    rewrite Nat2N.inj_succ, N.pow_succ_r'. eapply N.lt_le_trans; [exact H|]. rewrite N.mul_assoc. apply N.mul_le_mono_r. lia.
Qed.
Lemma substring_len : forall s n m, String.length (substring n m s) <= m.
Proof.
  induction s as [|c s IH]; intros [|n] [|m]; cbn; try lia.
  - specialize (IH 0 m). lia.
  - apply (IH n 0).
  - apply (IH n (S m)).
Qed.
Lemma append_len (a b : string) : String.length (a +:+ b) = String.length a + String.length b.
Proof. induction a; cbn; auto. Qed.
Lemma hex_fold_32 s x : String.length s <= 32 -> hex_fold s 0 = Some x -> (x < 2 ^ 128)%N.
Proof.
  intros L H. apply hex_fold_bound in H. eapply N.lt_le_trans; [exact H|]. rewrite N.add_0_l, N.mul_1_l.
  replace (2 ^ 128)%N with (16 ^ 32)%N by reflexivity. apply N.pow_le_mono_r; lia.
Qed.
(** Every identifier read from text is in range. *)
Lemma uuid_range s u : uuid_of_string s = Some u -> (u < 2 ^ 128)%N.
Proof.
  assert (H36 : forall t, uuid_of_hyphenated t = Some u -> (u < 2 ^ 128)%N).
  { intros t. unfold uuid_of_hyphenated. destruct (_ && _); [|discriminate]. apply hex_fold_32. rewrite !append_len.
    pose proof (substring_len t 0 8). pose proof (substring_len t 9 4). pose proof (substring_len t 14 4). pose proof (substring_len t 19 4).
    pose proof (substring_len t 24 12). lia. }
  unfold uuid_of_string. destruct (Nat.eqb_spec (String.length s) 32) as [E|]; [apply hex_fold_32; lia|].
  destruct (Nat.eqb _ 36); [apply H36|]. destruct (Nat.eqb _ 38); [destruct (_ && _); [apply H36|discriminate]|].
  destruct (Nat.eqb _ 45); [|discriminate]. destruct (strip_prefix _ s); [apply H36|discriminate].
Qed.
