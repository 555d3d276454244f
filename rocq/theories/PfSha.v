From Coq Require Import Lia Permutation Sorted.
From Verif Require Import Base BaseFacts Sha256 Sha256Facts SpecSha.
Local Open Scope N_scope.

(* --------------------------------------------------------------------- C91 *)
(** Functions on words, bit by bit. *)
Lemma from_bits_spec n : forall f j, N.testbit (from_bits n f) (N.of_nat j) = (Nat.ltb j n && f j)%bool.
Proof.
  induction n as [|n IH]; intros f j; cbn [from_bits]; [apply N.bits_0|]. destruct j as [|j].
  - cbn [N.of_nat]. rewrite N.testbit_0_r. reflexivity.
  - rewrite Nat2N.inj_succ, N.testbit_succ_r, IH. reflexivity.
Qed.
Lemma same_bits a b : (forall j, N.testbit a (N.of_nat j) = N.testbit b (N.of_nat j)) -> a = b.
Proof. intros H. apply N.bits_inj. intros n. rewrite <- (N2Nat.id n). apply H. Qed.
Definition small (x : N) : Prop := x < 2 ^ 32.
Lemma small_high x j : small x -> (32 <= j)%nat -> N.testbit x (N.of_nat j) = false.
Proof.
  intros S L. unfold small in S. rewrite <- (N.mod_small x (2 ^ 32) S). apply N.mod_pow2_bits_high. lia.
Qed.
Lemma from_bits_small f : small (from_bits 32 f).
Proof.
  assert (H : forall n g, from_bits n g < 2 ^ N.of_nat n).
  { induction n as [|n IH]; intros g; [reflexivity|]. cbn [from_bits]. specialize (IH (fun i => g (S i))). rewrite Nat2N.inj_succ, N.pow_succ_r'.
    destruct (g O); cbn [N.b2n]; lia. }
  apply (H 32%nat).
Qed.
Lemma rotr_spec n x : small x -> (0 < n < 32)%nat -> rotr (N.of_nat n) x = ROTR n x.
Proof.
  intros S R. apply same_bits. intros j. unfold ROTR. rewrite from_bits_spec. unfold rotr, w32, bit. rewrite N.lor_spec.
  rewrite N.shiftr_spec by lia. change 4294967296 with (2 ^ 32). destruct (Nat.ltb_spec j 32) as [L|L]; cbn [andb].
  - rewrite N.mod_pow2_bits_low by lia. destruct (Nat.ltb_spec (j + n) 32) as [L2|L2].
    + rewrite Nat.mod_small by lia. rewrite N.shiftl_spec_low by lia. rewrite Bool.orb_false_r. f_equal. lia.
    + replace ((j + n) mod 32)%nat with (j + n - 32)%nat by (replace (j + n)%nat with ((j + n - 32) + 1 * 32)%nat at 2 by lia; rewrite Nat.mod_add by lia; rewrite Nat.mod_small; lia).
      rewrite N.shiftl_spec_high by lia. replace (N.of_nat j + N.of_nat n) with (N.of_nat (j + n)) by lia. rewrite small_high by (auto; lia). cbn [orb].
      f_equal. lia.
  - rewrite N.mod_pow2_bits_high by lia. replace (N.of_nat j + N.of_nat n) with (N.of_nat (j + n)) by lia. rewrite small_high by (auto; lia). reflexivity.
Qed.
Lemma shr_spec n x : small x -> N.shiftr x (N.of_nat n) = SHR n x.
Proof.
  intros S. apply same_bits. intros j. unfold SHR. rewrite from_bits_spec, N.shiftr_spec by lia. unfold bit. rewrite <- Nat2N.inj_add.
  destruct (Nat.ltb_spec j 32) as [L|L]; cbn [andb]; [reflexivity|]. apply small_high; auto. lia.
Qed.
Lemma xor_spec x y z : small x -> small y -> small z -> xor3 x y z = XOR x y z.
Proof.
  intros X Y Z. apply same_bits. intros j. unfold XOR. rewrite from_bits_spec. unfold xor3, bit. rewrite !N.lxor_spec.
  destruct (Nat.ltb_spec j 32) as [L|L]; cbn [andb]; [reflexivity|]. now rewrite !small_high.
Qed.
Lemma ch_spec x y z : small x -> small y -> small z -> sha_ch x y z = Ch x y z.
Proof.
  intros X Y Z. apply same_bits. intros j. unfold Ch. rewrite from_bits_spec. unfold sha_ch, bit. rewrite !N.lxor_spec, !N.land_spec, !N.lxor_spec.
  change 4294967295 with (N.ones 32). destruct (Nat.ltb_spec j 32) as [L|L]; cbn [andb].
  - rewrite N.ones_spec_low by lia. destruct (N.testbit x (N.of_nat j)), (N.testbit y (N.of_nat j)), (N.testbit z (N.of_nat j)); reflexivity.
  - rewrite (small_high x), (small_high y), (small_high z) by auto. now rewrite ?Bool.andb_false_l, ?Bool.andb_false_r.
Qed.
Lemma maj_spec x y z : small x -> small y -> small z -> sha_maj x y z = Maj x y z.
Proof.
  intros X Y Z. apply same_bits. intros j. unfold Maj. rewrite from_bits_spec. unfold sha_maj, xor3, bit. rewrite !N.lxor_spec, !N.land_spec.
  destruct (Nat.ltb_spec j 32) as [L|L]; cbn [andb].
  - destruct (N.testbit x (N.of_nat j)), (N.testbit y (N.of_nat j)), (N.testbit z (N.of_nat j)); reflexivity.
  - rewrite (small_high x), (small_high y), (small_high z) by auto. reflexivity.
Qed.
Lemma sums_spec x : small x -> bsig0 x = SUM0 x /\ bsig1 x = SUM1 x /\ ssig0 x = sig0 x /\ ssig1 x = sig1 x.
Proof.
  intros S. unfold bsig0, bsig1, ssig0, ssig1, SUM0, SUM1, sig0, sig1.
  change (rotr 2 x) with (rotr (N.of_nat 2) x). change (rotr 13 x) with (rotr (N.of_nat 13) x). change (rotr 22 x) with (rotr (N.of_nat 22) x).
  change (rotr 6 x) with (rotr (N.of_nat 6) x). change (rotr 11 x) with (rotr (N.of_nat 11) x). change (rotr 25 x) with (rotr (N.of_nat 25) x).
  change (rotr 7 x) with (rotr (N.of_nat 7) x). change (rotr 18 x) with (rotr (N.of_nat 18) x). change (N.shiftr x 3) with (N.shiftr x (N.of_nat 3)).
  change (rotr 17 x) with (rotr (N.of_nat 17) x). change (rotr 19 x) with (rotr (N.of_nat 19) x). change (N.shiftr x 10) with (N.shiftr x (N.of_nat 10)).
  rewrite !rotr_spec by (auto; lia). rewrite !shr_spec by auto. rewrite !xor_spec by apply from_bits_small. auto.
Qed.

(** The constants. *)
Definition primes64 : list N :=
  [2; 3; 5; 7; 11; 13; 17; 19; 23; 29; 31; 37; 41; 43; 47; 53; 59; 61; 67; 71; 73; 79; 83; 89; 97; 101; 103; 107; 109; 113; 127; 131;
   137; 139; 149; 151; 157; 163; 167; 173; 179; 181; 191; 193; 197; 199; 211; 223; 227; 229; 233; 239; 241; 251; 257; 263; 269; 271;
   277; 281; 283; 293; 307; 311].
Definition upto (n : nat) : list N := map N.of_nat (seq 0 n).
Lemma upto_in n x : In x (upto n) <-> (N.to_nat x < n)%nat.
Proof.
  unfold upto. rewrite in_map_iff. split.
  - intros (k & <- & H). apply in_seq in H. lia.
  - intros H. exists (N.to_nat x). split; [apply N2Nat.id|]. apply in_seq. lia.
Qed.
Definition prime_b (p : N) : bool := (1 <? p) && forallb (fun d => negb (N.eqb (p mod d) 0) || (d =? 0) || (d =? 1) || (d =? p)) (upto (S (N.to_nat p))).
Lemma prime_b_spec p : prime_b p = true <-> prime p.
Proof.
  unfold prime_b, prime. rewrite Bool.andb_true_iff, N.ltb_lt, forallb_forall. split; intros [L H]; (split; [exact L|]).
  - intros d D. assert (D0 : d <> 0) by (intros ->; apply N.divide_0_l in D; lia). pose proof (N.divide_pos_le d p ltac:(lia) D) as Le.
    specialize (H d). rewrite upto_in in H. specialize (H ltac:(lia)). apply N.mod_divide in D; [|exact D0]. rewrite D in H.
    destruct (N.eqb_spec d 0); [contradiction|]. destruct (N.eqb_spec d 1); [now left|]. destruct (N.eqb_spec d p); [now right|]. discriminate.
  - intros d _. destruct (N.eqb_spec d 0) as [->|D0]; [now rewrite !Bool.orb_true_r|]. destruct (N.eqb_spec (p mod d) 0) as [D|D]; [|reflexivity].
    apply N.mod_divide in D; [|exact D0]. destruct (H d D) as [-> | ->]; rewrite N.eqb_refl; now rewrite ?Bool.orb_true_r.
Qed.
Definition primes_b (max : N) (ps : list N) : bool :=
  forallb prime_b ps && forallb (fun p => p <=? max) ps
  && forallb (fun q => negb (prime_b q) || existsb (N.eqb q) ps) (upto (S (N.to_nat max)))
  && forallb (fun j => forallb (fun i => nth i ps 0 <? nth j ps 0) (seq 0 j)) (seq 0 (length ps)).
Lemma primes_b_spec max ps : primes_b max ps = true -> first_primes (length ps) ps.
Proof.
  unfold primes_b. intros H. apply andb_prop in H as [H F4]. apply andb_prop in H as [H F3]. apply andb_prop in H as [F1 F2]. rewrite forallb_forall in *.
  split; [reflexivity|]. split; [|split].
  - intros i j [I J]. specialize (F4 j ltac:(apply in_seq; lia)). rewrite forallb_forall in F4. specialize (F4 i ltac:(apply in_seq; lia)). now apply N.ltb_lt.
  - intros p I. now apply prime_b_spec, F1.
  - intros p q Q I Le. specialize (F2 p I). apply N.leb_le in F2. specialize (F3 q). rewrite upto_in in F3. specialize (F3 ltac:(lia)).
    apply prime_b_spec in Q. rewrite Q in F3. cbn in F3. apply existsb_exists in F3 as (q' & I' & E). apply N.eqb_eq in E. now subst q'.
Qed.
Lemma primes64_first : first_primes 64 primes64.
Proof. apply (primes_b_spec 311). vm_compute. reflexivity. Qed.
Lemma primes8_first : first_primes 8 (firstn 8 primes64).
Proof. apply (primes_b_spec 19). vm_compute. reflexivity. Qed.

Lemma sorted_nth (l : list N) : (forall i j, (i < j < length l)%nat -> nth i l 0 < nth j l 0) -> StronglySorted N.lt l.
Proof.
  induction l as [|x l IH]; intros H; constructor.
  - apply IH. intros i j L. apply (H (S i) (S j)). cbn. lia.
  - apply Forall_forall. intros y Y. destruct (In_nth l y 0 Y) as (k & K & <-). apply (H O (S k)). cbn. lia.
Qed.
Lemma sorted_perm (l l' : list N) : StronglySorted N.lt l -> StronglySorted N.lt l' -> Permutation l l' -> l = l'.
Proof.
  intros S. revert l'. induction S as [|x l S IH F]; intros l' S' P; [apply Permutation_nil in P; now subst|].
  destruct S' as [|y l' S' F']; [symmetry in P; now apply Permutation_nil_cons in P|].
  assert (x = y).
  { rewrite Forall_forall in F, F'. assert (I : In x (y :: l')) by (eapply Permutation_in; [exact P|now left]).
    assert (J : In y (x :: l)) by (eapply Permutation_in; [symmetry; exact P|now left]).
    destruct I as [I|I]; [now symmetry|]. destruct J as [J|J]; [exact J|]. apply F' in I. apply F in J. lia. }
  subst y. f_equal. apply IH; [exact S'|]. now apply Permutation_cons_inv in P.
Qed.
Lemma sorted_nodup (l : list N) : StronglySorted N.lt l -> NoDup l.
Proof.
  induction 1 as [|x l S IH F]; constructor; [|exact IH]. intros I. rewrite Forall_forall in F. specialize (F x I). lia.
Qed.
Lemma first_primes_unique n ps ps' : first_primes n ps -> first_primes n ps' -> ps = ps'.
Proof.
  intros (L & O & P & D) (L' & O' & P' & D'). subst n. assert (S : StronglySorted N.lt ps) by now apply sorted_nth. rewrite <- L' in O'. assert (S' : StronglySorted N.lt ps') by now apply sorted_nth.
  apply sorted_perm; auto.
  destruct (Forall_dec (fun p => In p ps') (fun p => in_dec N.eq_dec p ps') ps) as [F|F].
  - rewrite Forall_forall in F. apply NoDup_Permutation_bis; [now apply sorted_nodup|lia|exact F].
  - symmetry. apply NoDup_Permutation_bis; [now apply sorted_nodup|lia|]. apply neg_Forall_Exists_neg in F; [|intros p; apply in_dec, N.eq_dec].
    apply Exists_exists in F as (p & I & N0). intros q Q. apply (D p q); auto. destruct (N.le_gt_cases q p) as [Le|Gt]; [exact Le|]. exfalso. apply N0. apply (D' q p); auto. lia.
Qed.
Lemma square_unique p k k' : square_root_bits p k -> square_root_bits p k' -> k = k'.
Proof. intros (r & [A B] & ->) (r' & [A' B'] & ->). assert (r = r') as ->; [|reflexivity]. revert A B A' B'. generalize (p * 2 ^ 64). intros x A B A' B'. nia. Qed.
Lemma cube_unique p k k' : cube_root_bits p k -> cube_root_bits p k' -> k = k'.
Proof.
  intros (r & [A B] & ->) (r' & [A' B'] & ->). assert (r = r') as ->; [|reflexivity]. revert A B A' B'. generalize (p * 2 ^ 96). intros x A B A' B'.
  assert (M : forall a b, a < b -> (a + 1) * (a + 1) * (a + 1) <= b * b * b).
  { intros a b L. assert (a + 1 <= b) by lia. apply N.mul_le_mono; [now apply N.mul_le_mono|assumption]. }
  destruct (N.lt_trichotomy r r') as [L|[L|L]]; [specialize (M _ _ L); lia|exact L|specialize (M _ _ L); lia].
Qed.
Lemma forall2_unique {A B} (R : A -> B -> Prop) l : (forall a b b', R a b -> R a b' -> b = b') -> forall m m', Forall2 R l m -> Forall2 R l m' -> m = m'.
Proof. intros U. induction l; intros m m' F F'; inversion F; inversion F'; subst; [reflexivity|]. f_equal; eauto. Qed.
Lemma constants_unique ks ks' : round_constants ks -> round_constants ks' -> ks = ks'.
Proof. intros (ps & P & F) (ps' & P' & F'). rewrite (first_primes_unique _ _ _ P P') in F. eapply forall2_unique; eauto using cube_unique. Qed.
Lemma initial_unique hs hs' : initial_hash hs -> initial_hash hs' -> hs = hs'.
Proof. intros (ps & P & F) (ps' & P' & F'). rewrite (first_primes_unique _ _ _ P P') in F. eapply forall2_unique; eauto using square_unique. Qed.
Fixpoint root (f : N -> bool) (n : nat) (acc : N) : N :=
  match n with O => acc | S k => let a := acc + 2 ^ N.of_nat k in root f k (if f a then a else acc) end.
Definition sqrt_b (p k : N) : bool :=
  let r := root (fun r => r * r <=? p * 2 ^ 64) 40 0 in (r * r <=? p * 2 ^ 64) && (p * 2 ^ 64 <? (r + 1) * (r + 1)) && (k =? r mod 2 ^ 32).
Definition cbrt_b (p k : N) : bool :=
  let r := root (fun r => r * r * r <=? p * 2 ^ 96) 40 0 in (r * r * r <=? p * 2 ^ 96) && (p * 2 ^ 96 <? (r + 1) * (r + 1) * (r + 1)) && (k =? r mod 2 ^ 32).
Lemma forall2_b {A B} (f : A -> B -> bool) (R : A -> B -> Prop) : (forall a b, f a b = true -> R a b) ->
  forall l m, length l = length m -> forallb (fun p => f (fst p) (snd p)) (combine l m) = true -> Forall2 R l m.
Proof.
  intros H. induction l as [|a l IH]; intros [|b m] L F; try discriminate; constructor.
  - cbn in F. apply andb_prop in F as [F _]. now apply H.
  - cbn in F, L. apply andb_prop in F as [_ F]. apply IH; auto.
Qed.
Lemma cbrt_b_spec p k : cbrt_b p k = true -> cube_root_bits p k.
Proof.
  unfold cbrt_b. generalize (root (fun r => r * r * r <=? p * 2 ^ 96) 40 0). intros r H. cbv zeta in H.
  apply andb_prop in H as [H E]. apply andb_prop in H as [A B]. exists r. split; [split; [now apply N.leb_le|now apply N.ltb_lt]|now apply N.eqb_eq].
Qed.
Lemma sqrt_b_spec p k : sqrt_b p k = true -> square_root_bits p k.
Proof.
  unfold sqrt_b. generalize (root (fun r => r * r <=? p * 2 ^ 64) 40 0). intros r H. cbv zeta in H.
  apply andb_prop in H as [H E]. apply andb_prop in H as [A B]. exists r. split; [split; [now apply N.leb_le|now apply N.ltb_lt]|now apply N.eqb_eq].
Qed.
Lemma cbrt_all : forallb (fun p => cbrt_b (fst p) (snd p)) (combine primes64 sha_k) = true.
Proof. vm_compute. reflexivity. Qed.
Lemma sqrt_all : forallb (fun p => sqrt_b (fst p) (snd p)) (combine (firstn 8 primes64) sha_h0) = true.
Proof. vm_compute. reflexivity. Qed.
Lemma sha_k_constants : round_constants sha_k.
Proof. exists primes64. split; [apply primes64_first|]. exact (forall2_b cbrt_b cube_root_bits cbrt_b_spec primes64 sha_k eq_refl cbrt_all). Qed.
Lemma sha_h0_initial : initial_hash sha_h0.
Proof. exists (firstn 8 primes64). split; [apply primes8_first|]. exact (forall2_b sqrt_b square_root_bits sqrt_b_spec (firstn 8 primes64) sha_h0 eq_refl sqrt_all). Qed.

(** Bytes and words. *)
Definition value (l : list N) : N := fold_left (fun a b => a * 256 + b) l 0.
Lemma value_snoc l b : value (l ++ [b]) = value l * 256 + b.
Proof. unfold value. now rewrite fold_left_app. Qed.
Lemma value_be n : forall x, value (be_bytes n x) = x mod 256 ^ N.of_nat n.
Proof.
  induction n as [|n IH]; intros x; cbn [be_bytes]; [now rewrite N.mod_1_r|]. rewrite value_snoc, IH, Nat2N.inj_succ, N.pow_succ_r'.
  rewrite N.mod_mul_r by (try lia; apply N.pow_nonzero; lia). lia.
Qed.
Lemma be_bytes_bytes n : forall x, byte_list (be_bytes n x).
Proof.
  induction n as [|n IH]; intros x b; cbn [be_bytes]; [intros []|]. rewrite in_app_iff. intros [H|[<-|[]]]; [eapply IH, H|]. now apply N.mod_lt.
Qed.
Lemma word_at_value a b c d : word_at [a; b; c; d] 0 = value [a; b; c; d].
Proof. unfold word_at, value. cbn [nth Nat.mul Nat.add fold_left]. change (2 ^ 24) with 16777216. change (2 ^ 16) with 65536. change (2 ^ 8) with 256. lia. Qed.
Lemma word_at_skip a b c d r j : word_at (a :: b :: c :: d :: r) (S j) = word_at r j.
Proof.
  unfold word_at. replace (4 * S j)%nat with (S (S (S (S (4 * j))))) by lia. reflexivity.
Qed.
Lemma word4_at a b c d r : word4 a b c d = word_at (a :: b :: c :: d :: r) 0.
Proof. unfold word4, word_at. cbn [nth Nat.mul Nat.add]. change (2 ^ 24) with 16777216. change (2 ^ 16) with 65536. change (2 ^ 8) with 256. lia. Qed.
Lemma four_ind (P : list N -> Prop) : P [] -> (forall a, P [a]) -> (forall a b, P [a; b]) -> (forall a b c, P [a; b; c]) ->
  (forall a b c d r, P r -> P (a :: b :: c :: d :: r)) -> forall l, P l.
Proof.
  intros H0 H1 H2 H3 H4. assert (G : forall n l, (length l <= n)%nat -> P l).
  { induction n as [|n IH]; intros l L; [destruct l; [exact H0|cbn in L; lia]|].
    destruct l as [|a [|b [|c [|d r]]]]; auto. apply H4, IH. cbn in L. lia. }
  intros l. now apply (G (length l)).
Qed.
Lemma words_nth l : forall j, (4 * j + 3 < length l)%nat -> nth j (words l) 0 = word_at l j.
Proof.
  induction l as [|a|a b|a b c|a b c d r IH] using four_ind; intros j L; cbn in L; try lia.
  cbn [words]. destruct j as [|j]; [cbn [nth]; apply word4_at|]. rewrite word_at_skip. cbn [nth]. apply IH. lia.
Qed.
Lemma words_len l : length (words l) = (length l / 4)%nat.
Proof.
  induction l as [|a|a b|a b c|a b c d r IH] using four_ind; try reflexivity. cbn [words length]. rewrite IH.
  replace (S (S (S (S (length r))))) with (length r + 1 * 4)%nat by lia. rewrite Nat.div_add by lia. lia.
Qed.
Lemma word_small l j : byte_list l -> small (word_at l j).
Proof.
  intros B. assert (G : forall k, nth k l 0 < 256).
  { intros k. destruct (Nat.lt_ge_cases k (length l)) as [L|L]; [apply B, nth_In, L|rewrite nth_overflow by exact L; reflexivity]. }
  unfold small, word_at. pose proof (G (4 * j)%nat). pose proof (G (4 * j + 1)%nat). pose proof (G (4 * j + 2)%nat). pose proof (G (4 * j + 3)%nat).
  change (2 ^ 32) with 4294967296. change (2 ^ 24) with 16777216. change (2 ^ 16) with 65536. change (2 ^ 8) with 256. lia.
Qed.
Lemma words_unique l : forall l', length l = length l' -> (length l mod 4 = 0)%nat -> byte_list l -> byte_list l' ->
  (forall j, (4 * j < length l)%nat -> word_at l j = word_at l' j) -> l = l'.
Proof.
  induction l as [|a|a b|a b c|a b c d r IH] using four_ind; intros l' L M B B' W; try (cbn in M; discriminate); [destruct l'; [reflexivity|discriminate]|].
  destruct l' as [|a' [|b' [|c' [|d' r']]]]; try discriminate. cbn in L.
  assert (W0 := W 0%nat ltac:(cbn; lia)). rewrite <- !word4_at in W0. unfold word4 in W0.
  assert (Ba : a < 256 /\ b < 256 /\ c < 256 /\ d < 256) by (repeat split; apply B; cbn; auto).
  assert (Ba' : a' < 256 /\ b' < 256 /\ c' < 256 /\ d' < 256) by (repeat split; apply B'; cbn; auto).
  assert (a = a' /\ b = b' /\ c = c' /\ d = d') as (-> & -> & -> & ->) by (clear -W0 Ba Ba'; lia).
  do 4 f_equal. apply IH.
  - lia.
  - cbn [length] in M. replace (S (S (S (S (length r))))) with (length r + 1 * 4)%nat in M by lia. now rewrite Nat.mod_add in M by lia.
  - intros x X. apply B. cbn. auto.
  - intros x X. apply B'. cbn. auto.
  - intros j J. specialize (W (S j)). rewrite !word_at_skip in W. apply W. cbn [length]. lia.
Qed.

(** Padding. *)
Lemma padded_unique m p p' : padded m p -> padded m p' -> p = p'.
Proof.
  intros (z & l & -> & Z & D & L & B & V) (z' & l' & -> & Z' & D' & L' & B' & V').
  assert (z = z') as ->.
  { rewrite app_length in D, D'. cbn [length] in D, D'. rewrite app_length, repeat_length in D, D'. rewrite L in D. rewrite L' in D'.
    apply Nat.mod_divides in D as (q & D); [|lia]. apply Nat.mod_divides in D' as (q' & D'); [|lia]. lia. }
  do 3 f_equal. apply words_unique; auto; [congruence|now rewrite L|]. rewrite L. intros j J.
  pose proof (word_small l 0 B). pose proof (word_small l 1 B). pose proof (word_small l' 0 B'). pose proof (word_small l' 1 B'). unfold small in *.
  assert (E : word_at l 0 * 2 ^ 32 + word_at l 1 = word_at l' 0 * 2 ^ 32 + word_at l' 1) by congruence. change (2 ^ 32) with 4294967296 in *.
  assert (word_at l 0 = word_at l' 0 /\ word_at l 1 = word_at l' 1) as [E0 E1] by lia. destruct j as [|[|j]]; auto. lia.
Qed.
Lemma pad_padded m : N.of_nat (length m) < 2 ^ 61 -> padded m (sha_pad m).
Proof.
  intros S. unfold sha_pad. set (n := N.of_nat (length m)) in *. exists (N.to_nat ((119 - n mod 64) mod 64)), (be_bytes 8 (8 * n)).
  split; [reflexivity|]. assert (Z : (119 - n mod 64) mod 64 < 64) by (apply N.mod_lt; lia). split; [lia|]. split.
  - rewrite !app_length, repeat_length, be_bytes_len. cbn [length].
    assert (E : (n + 9 + (119 - n mod 64) mod 64) mod 64 = 0).
    { pose proof (N.div_mod n 64 ltac:(lia)) as Dn. pose proof (N.mod_lt n 64 ltac:(lia)) as Ln. set (r := n mod 64) in *. set (q := n / 64) in *.
      destruct (N.le_gt_cases r 55) as [Lr|Lr].
      - replace (119 - r) with (55 - r + 1 * 64) by lia. rewrite N.mod_add by lia. rewrite (N.mod_small (55 - r)) by lia.
        replace (n + 9 + (55 - r)) with ((q + 1) * 64) by lia. now apply N.mod_mul.
      - rewrite (N.mod_small (119 - r)) by lia. replace (n + 9 + (119 - r)) with ((q + 2) * 64) by lia. now apply N.mod_mul. }
    apply N.mod_divide in E as (q & E); [|lia]. apply Nat.mod_divides; [lia|]. exists (N.to_nat q). subst n. lia.
  - split; [apply be_bytes_len|]. split; [apply be_bytes_bytes|].
    assert (V : forall l, length l = 8%nat -> word_at l 0 * 2 ^ 32 + word_at l 1 = value l).
    { intros l L. do 9 (destruct l as [|? l]; try discriminate L). unfold word_at, value. cbn [nth Nat.mul Nat.add fold_left].
      change (2 ^ 32) with 4294967296. change (2 ^ 24) with 16777216. change (2 ^ 16) with 65536. change (2 ^ 8) with 256. lia. }
    rewrite V by apply be_bytes_len. rewrite value_be. apply N.mod_small. change (256 ^ N.of_nat 8) with (2 ^ 64). change (2 ^ 61) with 2305843009213693952 in S. change (2 ^ 64) with 18446744073709551616. lia.
Qed.

(** One block. *)
Definition wstep (w : list N) : list N := tl w ++ [w32 (ssig1 (nth 14 w 0) + nth 9 w 0 + ssig0 (nth 1 w 0) + nth 0 w 0)].
Fixpoint window (w : list N) (t : nat) : list N := match t with O => w | S t => wstep (window w t) end.
Lemma window_len w t : length w = 16%nat -> length (window w t) = 16%nat.
Proof.
  intros L. induction t as [|t IH]; [exact L|]. cbn [window]. unfold wstep. rewrite app_length. destruct (window w t); [discriminate|]. cbn in *. lia.
Qed.
Lemma window_small w t : length w = 16%nat -> Forall small w -> Forall small (window w t).
Proof.
  intros L F. induction t as [|t IH]; [exact F|]. cbn [window]. unfold wstep. apply Forall_app. split; [destruct (window w t); [constructor|inversion IH; auto]|].
  repeat constructor. unfold small, w32. now apply N.mod_lt.
Qed.
Lemma window_shift w t i : length w = 16%nat -> (i < 15)%nat -> nth i (window w (S t)) 0 = nth (S i) (window w t) 0.
Proof.
  intros L I. cbn [window]. unfold wstep. pose proof (window_len w t L) as Lt. destruct (window w t) as [|x r]; [discriminate|]. cbn [tl nth].
  apply app_nth1. cbn in Lt. lia.
Qed.
Lemma window_at w i : length w = 16%nat -> (i < 16)%nat -> forall t, nth i (window w t) 0 = nth 0 (window w (t + i)) 0.
Proof.
  intros L. induction i as [|i IH]; intros I t; [now rewrite Nat.add_0_r|]. rewrite <- window_shift by lia. rewrite IH by lia. f_equal. f_equal. lia.
Qed.
Lemma nth_small w i : Forall small w -> small (nth i w 0).
Proof. intros F. destruct (Nat.lt_ge_cases i (length w)) as [L|L]; [|rewrite nth_overflow by exact L; reflexivity]. rewrite Forall_forall in F. apply F, nth_In, L. Qed.
Lemma window_schedule w : length w = 16%nat -> Forall small w -> schedule (fun t => nth t w 0) (fun t => nth 0 (window w t) 0).
Proof.
  intros L F. split.
  - intros t T. rewrite <- (Nat.add_0_l t) at 1. rewrite <- window_at by auto. reflexivity.
  - intros t T. replace t with (t - 15 + 15)%nat at 1 by lia. rewrite <- window_at by (auto; lia). replace (t - 15)%nat with (S (t - 16)) at 1 by lia. cbn [window]. unfold wstep.
    pose proof (window_len w (t - 16) L) as Lw. pose proof (window_small w (t - 16) L F) as Fw.
    assert (Lt : length (tl (window w (t - 16))) = 15%nat) by (destruct (window w (t - 16)); [discriminate|]; cbn in *; lia).
    rewrite app_nth2 by lia. rewrite Lt, Nat.sub_diag. cbn [nth].
    unfold w32. change 4294967296 with (2 ^ 32).
    destruct (sums_spec (nth 14 (window w (t - 16)) 0) (nth_small _ _ Fw)) as (_ & _ & _ & ->). destruct (sums_spec (nth 1 (window w (t - 16)) 0) (nth_small _ _ Fw)) as (_ & _ & -> & _).
    rewrite (window_at w 14), (window_at w 9), (window_at w 1) by (auto; lia).
    replace (t - 16 + 14)%nat with (t - 2)%nat by lia. replace (t - 16 + 9)%nat with (t - 7)%nat by lia. replace (t - 16 + 1)%nat with (t - 15)%nat by lia. reflexivity.
Qed.
Definition vars_of (l : list N) : vars := (nth 0 l 0, nth 1 l 0, nth 2 l 0, nth 3 l 0, nth 4 l 0, nth 5 l 0, nth 6 l 0, nth 7 l 0).
Lemma vars_of_list l : length l = 8%nat -> vars_list (vars_of l) = l.
Proof. intros L. do 9 (destruct l as [|? l]; try discriminate L). reflexivity. Qed.
Lemma vars_list_of v : vars_of (vars_list v) = v.
Proof. destruct v as [[[[[[[a b] c] d] e] f] g] h]. reflexivity. Qed.
Lemma round_spec l w k : length l = 8%nat -> length w = 16%nat -> Forall small l -> Forall small w ->
  vars_of (fst (sha_round (l, w) k)) = round k (nth 0 w 0) (vars_of l) /\ snd (sha_round (l, w) k) = wstep w
  /\ length (fst (sha_round (l, w) k)) = 8%nat /\ Forall small (fst (sha_round (l, w) k)).
Proof.
  intros L Lw F Fw. do 9 (destruct l as [|? l]; try discriminate L). destruct w as [|w0 [|w1 w]]; try discriminate Lw.
  cbn [sha_round fst snd]. repeat (match goal with H : Forall small (_ :: _) |- _ => inversion H; subst; clear H end).
  split; [|split; [|split]].
  - unfold vars_of, round. cbn [nth]. unfold w32. change 4294967296 with (2 ^ 32).
    repeat match goal with H : small ?x |- context [bsig1 ?x] => rewrite (proj1 (proj2 (sums_spec x H))) end.
    repeat match goal with H : small ?x |- context [bsig0 ?x] => rewrite (proj1 (sums_spec x H)) end.
    rewrite ch_spec, maj_spec by assumption. reflexivity.
  - reflexivity.
  - reflexivity.
  - repeat constructor; auto; unfold small, w32; now apply N.mod_lt.
Qed.
Lemma rounds_spec ks : forall l w, length l = 8%nat -> length w = 16%nat -> Forall small l -> Forall small w -> forall t, (t <= length ks)%nat ->
  let st := fold_left sha_round (firstn t ks) (l, w) in
  length (fst st) = 8%nat /\ Forall small (fst st) /\ snd st = window w t
  /\ (forall t', t' = S t -> (t < length ks)%nat -> vars_of (fst (fold_left sha_round (firstn t' ks) (l, w))) = round (nth t ks 0) (nth 0 (window w t) 0) (vars_of (fst st))).
Proof.
  intros l w L Lw F Fw. assert (N1 : forall t, (t < length ks)%nat -> firstn (S t) ks = firstn t ks ++ [nth t ks 0]).
  { clear. induction ks as [|k ks IH]; intros t T; [cbn in T; lia|]. destruct t as [|t]; [reflexivity|]. cbn in T. cbn [firstn nth app]. f_equal. rewrite <- IH by lia. reflexivity. }
  induction t as [|t IH]; intros T; cbv zeta.
  - cbn [firstn fold_left fst snd window]. split; [exact L|]. split; [exact F|]. split; [reflexivity|]. intros t' -> T1. rewrite (N1 0%nat T1). cbn [firstn app fold_left].
    now apply round_spec.
  - specialize (IH ltac:(lia)). cbv zeta in IH. destruct IH as (L1 & F1 & W1 & _). rewrite (N1 t) by lia. rewrite fold_left_app. cbn [fold_left].
    destruct (fold_left sha_round (firstn t ks) (l, w)) as [l1 w1] eqn:E1. cbn [fst snd] in *. subst w1.
    pose proof (window_len w t Lw) as Lt. pose proof (window_small w t Lw Fw) as Ft.
    destruct (round_spec l1 (window w t) (nth t ks 0) L1 Lt F1 Ft) as (_ & W2 & L2 & F2). split; [exact L2|]. split; [exact F2|]. split; [exact W2|].
    intros t' -> T1. rewrite (N1 (S t)) by exact T1. rewrite fold_left_app, (N1 t) by lia. rewrite fold_left_app, E1. cbn [fold_left].
    destruct (sha_round (l1, window w t) (nth t ks 0)) as [l2 w2]. cbn [fst snd] in *. subst w2.
    now apply (round_spec l2 (wstep (window w t))); try (apply (window_len w (S t))); try (apply (window_small w (S t))).
Qed.
Lemma schedule_ext b b' w : (forall t, (t < 16)%nat -> b t = b' t) -> schedule b w -> schedule b' w.
Proof. intros E [H1 H2]. split; [|exact H2]. intros t T. rewrite <- E by exact T. now apply H1. Qed.
Lemma block_compressed l w b : length l = 8%nat -> length w = 16%nat -> Forall small l -> Forall small w -> (forall t, (t < 16)%nat -> nth t w 0 = b t) ->
  compressed sha_k b (vars_of l) (vars_of (sha_block l w)) /\ Forall small (sha_block l w) /\ length (sha_block l w) = 8%nat.
Proof.
  intros L Lw F Fw B. split; [|split; [|now apply sha_block_len]].
  - exists (fun t => nth 0 (window w t) 0), (fun t => vars_of (fst (fold_left sha_round (firstn t sha_k) (l, w)))).
    split; [eapply schedule_ext; [exact B|now apply window_schedule]|]. split; [reflexivity|]. split.
    + intros t T. pose proof (rounds_spec sha_k l w L Lw F Fw t ltac:(cbn [length sha_k]; lia)) as R. cbv zeta in R. destruct R as (_ & _ & _ & R). now apply R.
    + pose proof (rounds_spec sha_k l w L Lw F Fw 64 ltac:(cbn [length sha_k]; lia)) as R. cbv zeta in R. destruct R as (L64 & _).
      rewrite !vars_of_list by (auto; now apply sha_block_len). unfold sha_block. change (firstn 64 sha_k) with sha_k in *.
      generalize (fst (fold_left sha_round sha_k (l, w))). intros l'. generalize (combine l l'). clear. intros c. induction c as [|[y z] c IH]; cbn; constructor; auto.
  - unfold sha_block. apply Forall_forall. intros x X. apply in_map_iff in X as (p & <- & _). unfold small, w32. now apply N.mod_lt.
Qed.

(** All blocks. *)
Lemma skipn_plus {A} (l : list A) : forall a b, skipn a (skipn b l) = skipn (b + a) l.
Proof. intros a b. revert l. induction b as [|b IH]; intros l; [reflexivity|]. destruct l; [now rewrite !skipn_nil|]. cbn. apply IH. Qed.
Lemma nth_firstn_lt (l : list N) : forall n i, (i < n)%nat -> nth i (firstn n l) 0 = nth i l 0.
Proof. induction l as [|x l IH]; intros [|n] i H; try lia; [reflexivity|]. destruct i; [reflexivity|]. cbn. apply IH. lia. Qed.
Lemma nth_skipn_plus (l : list N) : forall n i, nth i (skipn n l) 0 = nth (n + i) l 0.
Proof. induction l as [|x l IH]; intros [|n] i; try reflexivity; [destruct i; reflexivity|]. cbn. apply IH. Qed.
Lemma sha_blocks_snoc n : forall h ws, sha_blocks h ws (S n) = sha_block (sha_blocks h ws n) (firstn 16 (skipn (16 * n) ws)).
Proof.
  induction n as [|n IH]; intros h ws; [reflexivity|]. change (sha_blocks h ws (S (S n))) with (sha_blocks (sha_block h (firstn 16 ws)) (skipn 16 ws) (S n)). rewrite IH.
  cbn [sha_blocks]. f_equal. f_equal. rewrite skipn_plus. f_equal. lia.
Qed.
Lemma words_small l : byte_list l -> Forall small (words l).
Proof.
  induction l as [|a|a b|a b c|a b c d r IH] using four_ind; intros B; try constructor; [rewrite (word4_at a b c d r); now apply word_small|].
  apply IH. intros x X. apply B. cbn. auto.
Qed.
Lemma Forall_part {A} (P : A -> Prop) n k l : Forall P l -> Forall P (firstn n (skipn k l)).
Proof.
  intros F. rewrite Forall_forall in *. intros x X. apply F. rewrite <- (firstn_skipn k l). apply in_app_iff. right.
  rewrite <- (firstn_skipn n (skipn k l)). apply in_app_iff. now left.
Qed.
Lemma h0_small : Forall small sha_h0.
Proof. repeat constructor. Qed.
Lemma blocks_compressed p i : byte_list p -> (64 * i <= length p)%nat -> (length p mod 64 = 0)%nat ->
  let h := sha_blocks sha_h0 (words p) in
  length (h i) = 8%nat /\ Forall small (h i)
  /\ ((64 * i < length p)%nat -> compressed sha_k (fun t => word_at p (16 * i + t)) (vars_of (h i)) (vars_of (h (S i)))).
Proof.
  intros B L M h. assert (Q : exists q, (length p = 64 * q)%nat) by (apply Nat.mod_divides in M as (q & M); [eauto|lia]). destruct Q as [q Q].
  assert (Wl : length (words p) = (16 * q)%nat) by (rewrite words_len, Q; replace (64 * q)%nat with (16 * q * 4)%nat by lia; apply Nat.div_mul; lia).
  assert (G : forall i, (i < q)%nat -> length (h i) = 8%nat -> Forall small (h i) ->
     compressed sha_k (fun t => word_at p (16 * i + t)) (vars_of (h i)) (vars_of (h (S i))) /\ Forall small (h (S i)) /\ length (h (S i)) = 8%nat).
  { intros j J L8 F8. unfold h. rewrite sha_blocks_snoc. apply block_compressed; auto.
    - rewrite firstn_length, skipn_length, Wl. lia.
    - now apply Forall_part, words_small.
    - intros t T. rewrite nth_firstn_lt by exact T. rewrite nth_skipn_plus. apply words_nth. lia. }
  assert (H : length (h i) = 8%nat /\ Forall small (h i)).
  { assert (I : (i <= q)%nat) by lia. clear L. induction i as [|i IH]; [split; [reflexivity|apply h0_small]|]. destruct (IH ltac:(lia)) as [L8 F8]. destruct (G i ltac:(lia) L8 F8) as (_ & ? & ?). auto. }
  destruct H as [L8 F8]. split; [exact L8|]. split; [exact F8|]. intros L1. now apply G; [lia| |].
Qed.
Lemma digest_words l : Forall small l -> forall j, (j < length l)%nat -> word_at (flat_map (be_bytes 4) l) j = nth j l 0.
Proof.
  induction l as [|x l IH]; intros F j J; [cbn in J; lia|]. inversion F as [|? ? Sx Fl]; subst. cbn [flat_map].
  pose proof (be_bytes_len 4 x) as L4. pose proof (value_be 4 x) as V. destruct (be_bytes 4 x) as [|a [|b [|c [|d [|e r]]]]]; try discriminate L4. cbn [app].
  destruct j as [|j].
  - rewrite <- word4_at, (word4_at a b c d []), word_at_value, V. apply N.mod_small, Sx.
  - rewrite word_at_skip. cbn [nth]. apply IH; [exact Fl|]. cbn in J. lia.
Qed.
Lemma flat_bytes l : byte_list (flat_map (be_bytes 4) l).
Proof. intros b H. apply in_flat_map in H as (x & _ & H). eapply be_bytes_bytes, H. Qed.
Lemma bytes_of_of l : byte_list l -> bytes_of (of_bytes l) = l.
Proof.
  intros B. unfold bytes_of, of_bytes. rewrite list_ascii_of_string_of_list_ascii, map_map. rewrite <- (map_id l) at 2. apply map_ext_in. intros x X. apply N_ascii_embedding, B, X.
Qed.
Lemma bytes_of_bytes s : byte_list (bytes_of s).
Proof. intros b H. apply in_map_iff in H as (c & <- & _). apply N_ascii_bounded. Qed.
Lemma padded_bytes m p : padded m p -> byte_list m -> byte_list p.
Proof.
  intros (z & l & -> & _ & _ & _ & B & _) Bm x X. apply in_app_iff in X as [X|[<-|X]]; [now apply Bm|reflexivity|]. apply in_app_iff in X as [X|X]; [|now apply B].
  apply repeat_spec in X. now subst x.
Qed.

Lemma compressed_unique ks b v v1 v2 : compressed ks b v v1 -> compressed ks b v v2 -> v1 = v2.
Proof.
  intros (w & s & [W1 W2] & S0 & S1 & F) (w' & s' & [W1' W2'] & S0' & S1' & F').
  assert (W : forall t, (t < 64)%nat -> w t = w' t).
  { intros t. induction t as [t IH] using (well_founded_induction lt_wf). intros T. destruct (Nat.lt_ge_cases t 16) as [L|L]; [rewrite W1, W1' by exact L; reflexivity|].
    rewrite W2, W2' by lia. rewrite (IH (t - 2)%nat), (IH (t - 7)%nat), (IH (t - 15)%nat), (IH (t - 16)%nat) by lia. reflexivity. }
  assert (E : forall t, (t <= 64)%nat -> s t = s' t).
  { induction t as [|t IH]; intros T; [congruence|]. rewrite S1, S1' by lia. rewrite IH, W by lia. reflexivity. }
  rewrite E in F by lia. rewrite <- (vars_list_of v1), <- (vars_list_of v2). f_equal. revert F F'. generalize (vars_list v1), (vars_list v2), (combine (vars_list v) (vars_list (s' 64%nat))).
  intros l1 l2 c F. revert l2. induction F as [|x [y z] l c X F IH]; intros l2 F'; inversion F'; subst; [reflexivity|]. f_equal. now apply IH.
Qed.
Lemma digest_unique m d d' : digest m d -> digest m d' -> d = d'.
Proof.
  intros (ks & p & h & K & H0 & P & C & L & B & W) (ks' & p' & h' & K' & H0' & P' & C' & L' & B' & W').
  rewrite (constants_unique _ _ K' K) in C'. rewrite (padded_unique _ _ _ P' P) in *. assert (E0 := initial_unique _ _ H0 H0').
  assert (E0' : h 0%nat = h' 0%nat) by (rewrite <- (vars_list_of (h 0%nat)), <- (vars_list_of (h' 0%nat)); now f_equal).
  assert (Q : exists q, (length p = 64 * q)%nat) by (destruct P as (z & l & _ & _ & M & _); apply Nat.mod_divides in M as (q & M); [eauto|lia]). destruct Q as [q Q].
  assert (E : forall i, (i <= q)%nat -> h i = h' i).
  { induction i as [|i IH]; intros I; [exact E0'|]. specialize (C i ltac:(lia)). specialize (C' i ltac:(lia)). rewrite IH in C by lia. eapply compressed_unique; eassumption. }
  assert (D : (length p / 64 = q)%nat) by (rewrite Q, Nat.mul_comm; apply Nat.div_mul; lia). rewrite D in *.
  apply words_unique; auto; [congruence|now rewrite L|]. rewrite L. intros j J. rewrite W, W', E by lia. reflexivity.
Qed.
Lemma digest_sha s : N.of_nat (String.length s) < 2 ^ 61 -> digest (bytes_of s) (bytes_of (sha256 s)).
Proof.
  intros S. assert (Lm : length (bytes_of s) = String.length s) by (unfold bytes_of; rewrite map_length; clear; induction s; cbn; congruence).
  set (p := sha_pad (bytes_of s)). assert (P : padded (bytes_of s) p) by (apply pad_padded; now rewrite Lm).
  assert (Bp : byte_list p) by (eapply padded_bytes; [exact P|apply bytes_of_bytes]). assert (M : (length p mod 64 = 0)%nat) by (destruct P as (z & l & _ & _ & M & _); exact M).
  assert (Q : exists q, (length p = 64 * q)%nat) by (apply Nat.mod_divides in M as (q & M); [eauto|lia]). destruct Q as [q Q].
  assert (Wl : length (words p) = (16 * q)%nat) by (rewrite words_len, Q; replace (64 * q)%nat with (16 * q * 4)%nat by lia; apply Nat.div_mul; lia).
  assert (D : (length p / 64 = q)%nat) by (rewrite Q, Nat.mul_comm; apply Nat.div_mul; lia).
  destruct (blocks_compressed p q Bp ltac:(lia) M) as (Lq & Fq & _).
  exists sha_k, p, (fun i => vars_of (sha_blocks sha_h0 (words p) i)).
  split; [apply sha_k_constants|]. split; [exact sha_h0_initial|]. split; [exact P|]. split.
  - intros i I. destruct (blocks_compressed p i Bp ltac:(lia) M) as (_ & _ & C). now apply C.
  - assert (E : bytes_of (sha256 s) = flat_map (be_bytes 4) (sha_blocks sha_h0 (words p) q)).
    { unfold sha256. fold p. cbv zeta. rewrite Wl. replace (16 * q / 16)%nat with q by (rewrite Nat.mul_comm, Nat.div_mul; lia). apply bytes_of_of, flat_bytes. }
    rewrite E, D. split; [|split; [apply flat_bytes|]].
    + rewrite <- E. unfold bytes_of. rewrite map_length. pose proof (sha256_len s) as L. revert L. generalize (sha256 s). clear. intros s L. rewrite <- L. clear L. induction s; cbn; congruence.
    + intros j J. rewrite vars_of_list by exact Lq. apply digest_words; [exact Fq|]. rewrite Lq. exact J.
Qed.
(** C91: the digests used for certificate hashes, thumbprints, session transcripts and key bindings are those of
    SHA-256 as published, for any message shorter than 2^61 bytes. *)
Lemma c91_sha256_pf
  : forall (s : string) (d : list N),
    N.of_nat (String.length s) < 2 ^ 61 ->
    (digest (map N_of_ascii (list_ascii_of_string s)) d <-> d = map N_of_ascii (list_ascii_of_string (sha256 s))).
Proof.
  intros s d S. change (map N_of_ascii (list_ascii_of_string s)) with (bytes_of s). change (map N_of_ascii (list_ascii_of_string (sha256 s))) with (bytes_of (sha256 s)).
  split; [|intros ->; now apply digest_sha]. intros H. eapply digest_unique; [exact H|now apply digest_sha].
Qed.
Example c91_sha256_ex :
  map N_of_ascii (list_ascii_of_string (sha256 "abc"))
  = [186; 120; 22; 191; 143; 1; 207; 234; 65; 65; 64; 222; 93; 174; 34; 35; 176; 3; 97; 163; 150; 23; 122; 156; 180; 16; 255; 97; 242; 0; 21; 173].
Proof. vm_compute. reflexivity. Qed.
