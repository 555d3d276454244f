From Coq Require Import Lia.
From Verif Require Import Base JsonText BaseFacts Json Url Request Metadata Dcql Response Session StoreFacts Client Builder Server AnyStore ExVerifier.
From Verif Require Import SpecSession SpecServer SpecBuilder SpecStore SpecAtomic UuidFacts RandomId SpecRandomId PfBuilder PfServer PfAnyStore SpecAnyAtomic PfAnyAtomic.
Local Open Scope N_scope.

(* ------------------------------------------------------------ bits *)
Definition free_bits : N := 0xffffffffffff0fff3fffffffffffffff.
Definition set_bits : N := 0x40008000000000000000.
Lemma bits_apart i : N.testbit free_bits i && N.testbit set_bits i = false.
Proof. rewrite <- N.land_spec. assert (E : N.land free_bits set_bits = 0) by (vm_compute; reflexivity). rewrite E. apply N.bits_0. Qed.
Lemma high_bits u i : u < 2 ^ 128 -> 128 <= i -> N.testbit u i = false.
Proof.
  intros H L. destruct (N.eq_dec u 0) as [->|Nz]; [apply N.bits_0|]. apply N.bits_above_log2.
  apply N.lt_le_trans with 128; [|exact L]. apply N.log2_lt_pow2; [lia|exact H].
Qed.
Lemma below_bits u : (forall i, 128 <= i -> N.testbit u i = false) -> u < 2 ^ 128.
Proof.
  intros H. destruct (N.eq_dec u 0) as [->|Nz]; [reflexivity|]. apply N.log2_lt_pow2; [lia|].
  destruct (N.lt_ge_cases (N.log2 u) 128) as [L|L]; [exact L|]. pose proof (N.bit_log2 u Nz) as B. rewrite (H _ L) in B. discriminate B.
Qed.
Definition fixed_at : list N := [62; 63; 76; 77; 78; 79].
Definition bits_listed : bool :=
  forallb (fun k => let i := N.of_nat k in eqb (N.testbit free_bits i) (negb (existsb (N.eqb i) fixed_at))) (seq 0 128).
Lemma bits_listed_ok : bits_listed = true.
Proof. vm_compute. reflexivity. Qed.
Lemma fixed_bits i : i < 128 -> N.testbit free_bits i = false -> In i fixed_at.
Proof.
  intros H E. pose proof bits_listed_ok as S. unfold bits_listed in S. rewrite forallb_forall in S. specialize (S (N.to_nat i)). rewrite N2Nat.id in S.
  assert (In (N.to_nat i) (seq 0 128)) as I by (apply in_seq; lia). specialize (S I). cbv zeta in S. apply eqb_prop in S. rewrite E in S. symmetry in S. apply negb_false_iff in S.
  apply existsb_exists in S as (x & Hx & Q). apply N.eqb_eq in Q. now subst x.
Qed.
Lemma new_v4_bit w i : N.testbit (new_v4 w) i = N.testbit w i && N.testbit free_bits i || N.testbit set_bits i.
Proof. unfold new_v4. fold free_bits set_bits. now rewrite N.lor_spec, N.land_spec. Qed.
Lemma group_bit u s n k : k < n -> N.testbit ((u / 2 ^ s) mod 2 ^ n) k = N.testbit u (s + k).
Proof. intros H. rewrite N.mod_pow2_bits_low by exact H. rewrite <- N.shiftr_div_pow2, N.shiftr_spec' . f_equal. lia. Qed.
Lemma group_small x n : (forall k, n <= k -> N.testbit (x mod 2 ^ n) k = false).
Proof. intros k H. now apply N.mod_pow2_bits_high. Qed.
Lemma version4_fixed u : version4 u -> new_v4 u = u.
Proof.
  intros (B & V & R). apply N.bits_inj. intros i. rewrite new_v4_bit.
  destruct (N.lt_ge_cases i 128) as [L|L].
  - destruct (N.testbit free_bits i) eqn:Fb.
    + pose proof (bits_apart i) as A. rewrite Fb in A. cbn [andb] in A. rewrite A. now rewrite andb_true_r, orb_false_r.
    + rewrite andb_false_r. cbn [orb]. apply (fixed_bits i L) in Fb.
      change 16 with (2 ^ 4) in V. change 4 with (2 ^ 2) in R.
      assert (V' : forall k, k < 4 -> N.testbit u (76 + k) = N.testbit 4 k) by (intros k Hk; rewrite <- (group_bit u 76 4 k Hk), V; reflexivity).
      assert (R' : forall k, k < 2 -> N.testbit u (62 + k) = N.testbit 2 k) by (intros k Hk; rewrite <- (group_bit u 62 2 k Hk), R; reflexivity).
      unfold fixed_at in Fb. cbn [In] in Fb.
      destruct Fb as [<-|[<-|[<-|[<-|[<-|[<-|[]]]]]]].
      * symmetry. exact (R' 0 eq_refl).
      * symmetry. exact (R' 1 eq_refl).
      * symmetry. exact (V' 0 eq_refl).
      * symmetry. exact (V' 1 eq_refl).
      * symmetry. exact (V' 2 eq_refl).
      * symmetry. exact (V' 3 eq_refl).
  - rewrite (high_bits u i B L). cbn [andb orb]. apply high_bits; [reflexivity|exact L].
Qed.
Lemma new_v4_word w : new_v4 w < 2 ^ 128.
Proof.
  apply below_bits. intros i L. rewrite new_v4_bit. rewrite (high_bits free_bits i) by (reflexivity || exact L). rewrite (high_bits set_bits i) by (reflexivity || exact L).
  now rewrite andb_false_r.
Qed.
Lemma mod_bits x y n : (forall k, k < n -> N.testbit x k = N.testbit y k) -> y < 2 ^ n -> x mod 2 ^ n = y.
Proof.
  intros H L. apply N.bits_inj. intros k. destruct (N.lt_ge_cases k n) as [Lk|Lk].
  - rewrite N.mod_pow2_bits_low by exact Lk. now apply H.
  - rewrite N.mod_pow2_bits_high by exact Lk. rewrite <- (N.mod_small y (2 ^ n) L). symmetry. now apply N.mod_pow2_bits_high.
Qed.
Lemma below4 k : k < 4 -> k = 0 \/ k = 1 \/ k = 2 \/ k = 3.
Proof. lia. Qed.
Lemma below2 k : k < 2 -> k = 0 \/ k = 1.
Proof. lia. Qed.
Lemma new_v4_version4 w : version4 (new_v4 w).
Proof.
  split; [apply new_v4_word|]. split.
  - apply (mod_bits _ 4 4); [|reflexivity]. intros k Hk. rewrite <- N.shiftr_div_pow2, N.shiftr_spec', new_v4_bit.
    apply below4 in Hk as [->|[->|[->| ->]]]; match goal with |- N.testbit w ?i && N.testbit free_bits ?j || N.testbit set_bits ?l = ?r =>
      replace (N.testbit free_bits j) with false by (vm_compute; reflexivity); replace (N.testbit set_bits l) with r by (vm_compute; reflexivity) end; now rewrite andb_false_r.
  - apply (mod_bits _ 2 2); [|reflexivity]. intros k Hk. rewrite <- N.shiftr_div_pow2, N.shiftr_spec', new_v4_bit.
    apply below2 in Hk as [->| ->]; match goal with |- N.testbit w ?i && N.testbit free_bits ?j || N.testbit set_bits ?l = ?r =>
      replace (N.testbit free_bits j) with false by (vm_compute; reflexivity); replace (N.testbit set_bits l) with r by (vm_compute; reflexivity) end; now rewrite andb_false_r.
Qed.

(** The difference of two identifiers has no fixed bits. *)
Lemma exchange_v4 w u u' : version4 u -> version4 u' -> new_v4 (N.lxor w (N.lxor u u')) = N.lxor (new_v4 w) (N.lxor u u').
Proof.
  intros V V'. apply N.bits_inj. intros i. rewrite N.lxor_spec, !new_v4_bit, N.lxor_spec, N.lxor_spec.
  rewrite <- (version4_fixed u V), <- (version4_fixed u' V'), !new_v4_bit.
  pose proof (bits_apart i) as A. destruct (N.testbit w i), (N.testbit u i), (N.testbit u' i), (N.testbit free_bits i), (N.testbit set_bits i); cbn in *; congruence.
Qed.
Lemma lxor_word a b : a < 2 ^ 128 -> b < 2 ^ 128 -> N.lxor a b < 2 ^ 128.
Proof. intros A B. apply below_bits. intros i L. rewrite N.lxor_spec, (high_bits a i A L), (high_bits b i B L). reflexivity. Qed.

(* ------------------------------------------------------------ counting *)
Definition overwritten (w : N) : N * N := ((w / 2 ^ 62) mod 4, (w / 2 ^ 76) mod 16).
Lemma same_word w w' : word w -> word w' -> new_v4 w = new_v4 w' -> overwritten w = overwritten w' -> w = w'.
Proof.
  intros W W' E O. assert (O1 : (w / 2 ^ 62) mod 2 ^ 2 = (w' / 2 ^ 62) mod 2 ^ 2) by exact (f_equal fst O).
  assert (O2 : (w / 2 ^ 76) mod 2 ^ 4 = (w' / 2 ^ 76) mod 2 ^ 4) by exact (f_equal snd O).
  apply N.bits_inj. intros i. destruct (N.lt_ge_cases i 128) as [L|L]; [|now rewrite (high_bits w i W L), (high_bits w' i W' L)].
  destruct (N.testbit free_bits i) eqn:Fb.
  - pose proof (f_equal (fun x => N.testbit x i) E) as B. cbv beta in B. rewrite !new_v4_bit, Fb in B. pose proof (bits_apart i) as A. rewrite Fb in A. cbn [andb] in A. rewrite A in B.
    now rewrite !andb_true_r, !orb_false_r in B.
  - apply (fixed_bits i L) in Fb.
    assert (V' : forall k, k < 4 -> N.testbit w (76 + k) = N.testbit w' (76 + k)) by (intros k Hk; rewrite <- (group_bit w 76 4 k Hk), <- (group_bit w' 76 4 k Hk), O2; reflexivity).
    assert (R' : forall k, k < 2 -> N.testbit w (62 + k) = N.testbit w' (62 + k)) by (intros k Hk; rewrite <- (group_bit w 62 2 k Hk), <- (group_bit w' 62 2 k Hk), O1; reflexivity).
    unfold fixed_at in Fb. cbn [In] in Fb. destruct Fb as [<-|[<-|[<-|[<-|[<-|[<-|[]]]]]]].
    + exact (R' 0 eq_refl).
    + exact (R' 1 eq_refl).
    + exact (V' 0 eq_refl).
    + exact (V' 1 eq_refl).
    + exact (V' 2 eq_refl).
    + exact (V' 3 eq_refl).
Qed.
Lemma NoDup_map_on {A B} (f : A -> B) l : (forall x y, In x l -> In y l -> f x = f y -> x = y) -> NoDup l -> NoDup (map f l).
Proof.
  intros Inj N. induction N as [|a l Na N IH]; cbn [map]; constructor.
  - intros H. apply in_map_iff in H as (b & E & Hb). apply Na. rewrite (Inj a b); [exact Hb|now left|now right|now symmetry].
  - apply IH. intros x y Hx Hy. apply Inj; now right.
Qed.
Lemma preimages u l : NoDup l -> (forall w, In w l -> word w /\ new_v4 w = u) -> (length l <= 64)%nat.
Proof.
  intros N H. rewrite <- (map_length overwritten l).
  change 64%nat with (length (list_prod [0; 1; 2; 3] [0; 1; 2; 3; 4; 5; 6; 7; 8; 9; 10; 11; 12; 13; 14; 15])).
  apply NoDup_incl_length.
  - apply NoDup_map_on; [|exact N]. intros x y Hx Hy E. destruct (H x Hx) as [Wx Ex], (H y Hy) as [Wy Ey]. apply same_word; congruence.
  - intros p Hp. apply in_map_iff in Hp as (w & <- & _). unfold overwritten. apply in_prod.
    + pose proof (N.mod_lt (w / 2 ^ 62) 4 ltac:(lia)) as L. remember ((w / 2 ^ 62) mod 4) as x. cbn [In]. lia.
    + pose proof (N.mod_lt (w / 2 ^ 76) 16 ltac:(lia)) as L. remember ((w / 2 ^ 76) mod 16) as x. cbn [In]. lia.
Qed.

(** Counting by cases and by fibres. *)
Lemma split_length {A} (f : A -> bool) l : length l = (length (filter f l) + length (filter (fun x => negb (f x)) l))%nat.
Proof. induction l as [|a l IH]; [reflexivity|]. cbn [filter length]. destruct (f a); cbn [negb length]; lia. Qed.
Lemma fibres {A B} (dec : forall x y : B, {x = y} + {x <> y}) (f : A -> B) (p : nat) keys : forall l : list A,
  (forall x, In x l -> In (f x) keys) ->
  (forall k sub, In k keys -> NoDup sub -> (forall x, In x sub -> In x l /\ f x = k) -> (length sub <= p)%nat) ->
  NoDup l -> (length l <= p * length keys)%nat.
Proof.
  induction keys as [|k keys IH]; intros l C P N.
  - destruct l as [|a l]; [cbn; lia|]. destruct (C a). now left.
  - rewrite (split_length (fun x => if dec (f x) k then true else false) l). cbn [length].
    assert (H1 : (length (filter (fun x => if dec (f x) k then true else false) l) <= p)%nat).
    { apply (P k); [now left|now apply NoDup_filter|]. intros x Hx. apply filter_In in Hx as [Hx Q]. destruct (dec (f x) k); [now split|discriminate]. }
    assert (H2 : (length (filter (fun x => negb (if dec (f x) k then true else false)) l) <= p * length keys)%nat).
    { apply IH; [| |now apply NoDup_filter].
      - intros x Hx. apply filter_In in Hx as [Hx Q]. destruct (dec (f x) k) as [|Ne]; [discriminate|]. destruct (C x Hx) as [E|I]; [congruence|exact I].
      - intros k' sub Hk Ns Hs. apply (P k'); [now right|exact Ns|]. intros x Hx. destruct (Hs x Hx) as [I E]. apply filter_In in I as [I _]. now split. }
    lia.
Qed.
Lemma fewer_keys {A B} (dec : forall x y : B, {x = y} + {x <> y}) (f : A -> B) (p q : N) (l : list A) :
  (forall keys, NoDup keys -> (forall k, In k keys -> exists x, In x l /\ f x = k) -> count keys <= q) ->
  (forall k sub, NoDup sub -> (forall x, In x sub -> In x l /\ f x = k) -> count sub <= p) ->
  NoDup l -> count l <= p * q.
Proof.
  intros K P N. set (keys := nodup dec (map f l)).
  assert (Kq : count keys <= q).
  { apply K; [apply NoDup_nodup|]. intros k Hk. apply nodup_In, in_map_iff in Hk as (x & E & Hx). eauto. }
  assert (L : (length l <= N.to_nat p * length keys)%nat).
  { apply (fibres dec f); [| |exact N].
    - intros x Hx. apply nodup_In. now apply in_map.
    - intros k sub _ Ns Hs. specialize (P k sub Ns Hs). unfold count in P. lia. }
  unfold count in *. apply N.le_trans with (N.of_nat (N.to_nat p * length keys)); [lia|]. rewrite Nat2N.inj_mul, N2Nat.id. now apply N.mul_le_mono_l.
Qed.
Lemma words_count (B : N) l : NoDup l -> (forall w, In w l -> w < B) -> count l <= B.
Proof.
  intros N H. unfold count. assert (L : (length l <= length (map N.of_nat (seq 0 (N.to_nat B))))%nat).
  { apply NoDup_incl_length; [exact N|]. intros w Hw. specialize (H w Hw). apply in_map_iff. exists (N.to_nat w). split; [apply N2Nat.id|]. apply in_seq. lia. }
  rewrite map_length, seq_length in L. lia.
Qed.

Section Birthday.
Variable B p : N.
Variable f : N -> N.
Hypothesis Pre : forall u l, NoDup l -> (forall w, In w l -> w < B /\ f w = u) -> count l <= p.
Lemma guessed gs l : NoDup l -> (forall w, In w l -> w < B /\ In (f w) gs) -> count l <= p * count gs.
Proof.
  intros N H. assert (L : (length l <= N.to_nat p * length gs)%nat).
  { apply (fibres N.eq_dec f); [intros x Hx; now apply H| |exact N]. intros k sub _ Ns Hs. assert (count sub <= p) as Q; [|unfold count in Q; lia].
    apply (Pre k); [exact Ns|]. intros w Hw. destruct (Hs w Hw) as [I E]. now split; [apply H|]. }
  unfold count. apply N.le_trans with (N.of_nat (N.to_nat p * length gs)); [lia|]. rewrite Nat2N.inj_mul, N2Nat.id. apply N.le_refl.
Qed.
Definition tuple (n : nat) (d : list N) : Prop := length d = n /\ Forall (fun w => w < B) d.
Definition rest_of (d : list N) : list N := tl d.
Definition list_dec : forall x y : list N, {x = y} + {x <> y} := list_eq_dec N.eq_dec.
(** All tuples with the same tail: they differ in the head. *)
Lemma heads (q : N) n (k : list N) sub : NoDup sub -> (forall d, In d sub -> tuple (S n) d /\ rest_of d = k) ->
  (forall l, NoDup l -> (forall w, In w l -> In (w :: k) sub) -> count l <= q) -> count sub <= q.
Proof.
  intros N H Q. assert (E : forall d, In d sub -> d = hd 0 d :: k).
  { intros d Hd. destruct (H d Hd) as [[L _] T]. destruct d as [|w d]; [discriminate L|]. cbn in *. now rewrite T. }
  assert (C : count (map (hd 0) sub) <= q).
  { apply Q.
    - apply NoDup_map_on; [|exact N]. intros x y Hx Hy Hh. rewrite (E x Hx), (E y Hy). now rewrite Hh.
    - intros w Hw. apply in_map_iff in Hw as (d & <- & Hd). rewrite <- (E d Hd). exact Hd. }
  unfold count in *. now rewrite map_length in C.
Qed.
Lemma tuples n : forall l, NoDup l -> (forall d, In d l -> tuple n d) -> count l <= B ^ N.of_nat n.
Proof.
  induction n as [|n IH]; intros l N H.
  - destruct l as [|d [|d' l]]; [cbn; lia|cbn; lia|]. destruct (H d) as [L _]; [now left|]. destruct (H d') as [L' _]; [right; now left|].
    destruct d, d'; try discriminate. inversion N as [|? ? Ni _]; subst. destruct Ni. now left.
  - rewrite Nat2N.inj_succ, N.pow_succ_r'. apply (fewer_keys list_dec rest_of B (B ^ N.of_nat n) l); [| |exact N].
    + intros keys Nk Hk. apply IH; [exact Nk|]. intros k Ik. destruct (Hk k Ik) as (d & Hd & <-). destruct (H d Hd) as [L F]. destruct d as [|w d]; [discriminate L|].
      cbn in *. split; [lia|now inversion F].
    + intros k sub Ns Hs. apply (heads B n k sub Ns); [intros d Hd; destruct (Hs d Hd) as [I E]; auto|].
      intros l' Nl Hl. apply words_count; [exact Nl|]. intros w Hw. destruct (Hs _ (Hl w Hw)) as [I _]. destruct (H _ I) as [_ F]. now inversion F.
Qed.
Lemma nodup_bool (l : list N) : {NoDup l} + {~ NoDup l}.
Proof. apply ListDec.NoDup_dec. exact N.eq_dec. Qed.
Lemma collisions n : forall l, NoDup l -> (forall d, In d l -> tuple n d /\ ~ NoDup (map f d)) ->
  2 * count l * B <= N.of_nat n * (N.of_nat n - 1) * p * B ^ N.of_nat n.
Proof.
  induction n as [|n IH]; intros l N H.
  - destruct l as [|d l]; [cbn; lia|]. destruct (H d) as [[L _] C]; [now left|]. destruct d; [|discriminate L]. destruct C. constructor.
  - set (col := fun d : list BinNums.N => if nodup_bool (map f (rest_of d)) then false else true).
    assert (Hs : forall d, In d l -> exists w d', d = w :: d' /\ w < B /\ tuple n d').
    { intros d Hd. destruct (H d Hd) as [[L F] _]. destruct d as [|w d']; [discriminate L|]. exists w, d'. inversion F; subst. cbn in L. repeat split; auto; lia. }
    assert (C1 : 2 * count (filter col l) * B <= B * (N.of_nat n * (N.of_nat n - 1) * p * B ^ N.of_nat n)).
    { set (X := 2 * B). set (l1 := filter col l).
      set (keys := nodup list_dec (map rest_of l1)).
      assert (K : 2 * count keys * B <= N.of_nat n * (N.of_nat n - 1) * p * B ^ N.of_nat n).
      { apply IH; [apply NoDup_nodup|]. intros k Hk. apply nodup_In, in_map_iff in Hk as (d & E & Hd). apply filter_In in Hd as [Hd Q].
        destruct (Hs d Hd) as (w & d' & -> & _ & Td). unfold col in Q. cbn [tl rest_of] in *. subst k. split; [exact Td|]. destruct (nodup_bool (map f d')); [discriminate|assumption]. }
      assert (L : count l1 <= B * count keys).
      { assert (Ln : (length l1 <= N.to_nat B * length keys)%nat).
        { apply (fibres list_dec rest_of); [intros d Hd; apply nodup_In; now apply in_map| |now apply NoDup_filter].
          intros k sub _ Ns Hsub. assert (count sub <= B) as Q; [|unfold count in Q; lia].
          assert (H' : forall d, In d sub -> tuple (S n) d /\ rest_of d = k) by (intros d Hd; destruct (Hsub d Hd) as [I E]; apply filter_In in I as [I _]; split; [now apply H|exact E]).
          apply (heads B n k sub Ns H'). intros l' Nl Hl. apply words_count; [exact Nl|]. intros w Hw. destruct (H' _ (Hl w Hw)) as [[_ F] _]. now inversion F. }
        unfold count. apply N.le_trans with (N.of_nat (N.to_nat B * length keys)); [lia|]. rewrite Nat2N.inj_mul, N2Nat.id. apply N.le_refl. }
      apply N.le_trans with (B * (2 * count keys * B)); [|now apply N.mul_le_mono_l].
      apply N.le_trans with (2 * (B * count keys) * B); [apply N.mul_le_mono_r, N.mul_le_mono_l; exact L|]. apply N.eq_le_incl. ring. }
    assert (C2 : count (filter (fun d => negb (col d)) l) <= p * N.of_nat n * B ^ N.of_nat n).
    { apply (fewer_keys list_dec rest_of); [| |now apply NoDup_filter].
      - intros keys Nk Hk. apply tuples; [exact Nk|]. intros k Ik. destruct (Hk k Ik) as (d & Hd & <-). apply filter_In in Hd as [Hd _].
        destruct (Hs d Hd) as (w & d' & -> & _ & Td). exact Td.
      - intros k sub Ns Hsub.
        assert (H' : forall d, In d sub -> tuple (S n) d /\ rest_of d = k) by (intros d Hd; destruct (Hsub d Hd) as [I E]; apply filter_In in I as [I _]; split; [now apply H|exact E]).
        apply (heads (p * N.of_nat n) n k sub Ns H'). intros l' Nl Hl. destruct l' as [|w0 l''] eqn:El; [cbn; lia|]. rewrite <- El in *.
        assert (Lk : length k = n).
        { destruct (H' (w0 :: k)) as [[L _] _]; [apply Hl; rewrite El; now left|]. cbn in L. lia. }
        replace (N.of_nat n) with (count (map f k)) by (unfold count; rewrite map_length; now rewrite Lk).
        apply guessed; [exact Nl|]. intros w Hw. destruct (Hsub _ (Hl w Hw)) as [I _]. apply filter_In in I as [I Q]. destruct (H _ I) as [[_ F] C].
        split; [now inversion F|]. unfold col in Q. cbn [tl rest_of] in Q. destruct (nodup_bool (map f k)) as [Nd|]; [|discriminate Q].
        destruct (in_dec N.eq_dec (f w) (map f k)) as [Hi|Ni]; [exact Hi|]. destruct C. cbn [map]. now constructor. }
    assert (E : count l = count (filter col l) + count (filter (fun d => negb (col d)) l)) by (unfold count; rewrite <- Nat2N.inj_add; f_equal; apply split_length).
    rewrite E. rewrite Nat2N.inj_succ, N.pow_succ_r'. set (x := count (filter col l)) in *. set (y := count (filter (fun d => negb (col d)) l)) in *.
    set (P := B ^ N.of_nat n) in *. set (m := N.of_nat n) in *.
    assert (Y : 2 * y * B <= 2 * (p * m * P) * B) by (apply N.mul_le_mono_r, N.mul_le_mono_l; exact C2).
    replace (N.succ m - 1) with m by lia.
    destruct (N.eq_dec m 0) as [Z|Nz].
    + rewrite Z in *. lia.
    + assert (Em : exists m', m = N.succ m') by (exists (N.pred m); lia). destruct Em as (m' & Em). rewrite Em in *. replace (N.succ m' - 1) with m' in C1 by lia.
      rewrite <- !N.add_1_r in *.
      apply N.le_trans with (2 * x * B + 2 * y * B); [apply N.eq_le_incl; ring|].
      apply N.le_trans with (B * ((m' + 1) * m' * p * P) + 2 * (p * (m' + 1) * P) * B); [now apply N.add_le_mono|apply N.eq_le_incl; ring].
Qed.
End Birthday.

(* ------------------------------------------------------------ the text *)
Lemma digits_length n : forall x, String.length (hex_digits n x) = n.
Proof. induction n as [|n IH]; intros x; [reflexivity|]. cbn [hex_digits]. rewrite append_len, IH. cbn. lia. Qed.
Lemma first_digit x r : String.get 0 (hex_digits 4 x +:+ r) = Some (hexdig ((x / 4096) mod 16)).
Proof.
  cbn [hex_digits]. replace (x / 4096) with (x / 16 / 16 / 16) by (rewrite !N.div_div by discriminate; reflexivity). reflexivity.
Qed.
Lemma version_char u : String.get 14 (uuid_str u) = Some (hexdig ((u / 2 ^ 76) mod 16)).
Proof.
  unfold uuid_str.
  change 14%nat with (8 + (1 + (4 + (1 + 0))))%nat.
  rewrite <- (digits_length 8 (u / 2 ^ 96)) at 1. rewrite get_skip. change 1%nat with (String.length "-") at 1. rewrite get_skip.
  rewrite <- (digits_length 4 (u / 2 ^ 80)) at 1. rewrite get_skip. change 1%nat with (String.length "-") at 1. rewrite get_skip.
  rewrite first_digit. do 3 f_equal. rewrite N.div_div by discriminate. reflexivity.
Qed.
Lemma variant_char u : String.get 19 (uuid_str u) = Some (hexdig ((u / 2 ^ 60) mod 16)).
Proof.
  unfold uuid_str.
  change 19%nat with (8 + (1 + (4 + (1 + (4 + (1 + 0))))))%nat.
  rewrite <- (digits_length 8 (u / 2 ^ 96)) at 1. rewrite get_skip. change 1%nat with (String.length "-") at 1. rewrite get_skip.
  rewrite <- (digits_length 4 (u / 2 ^ 80)) at 1. rewrite get_skip. change 1%nat with (String.length "-") at 1. rewrite get_skip.
  rewrite <- (digits_length 4 (u / 2 ^ 64)) at 1. rewrite get_skip. change 1%nat with (String.length "-") at 1. rewrite get_skip.
  rewrite first_digit. do 3 f_equal. rewrite N.div_div by discriminate. reflexivity.
Qed.
Lemma variant_group u : (u / 2 ^ 62) mod 4 = 2 -> In ((u / 2 ^ 60) mod 16) [8; 9; 10; 11].
Proof.
  intros H. replace (2 ^ 62) with (2 ^ 60 * 4) in H by reflexivity. rewrite <- N.div_div in H by discriminate. remember (u / 2 ^ 60) as x.
  assert (x mod 16 = x - 16 * (x / 16)) by (pose proof (N.div_mod x 16); lia). cbn [In].
  zify; Z.to_euclidean_division_equations; lia.
Qed.

(* ------------------------------------------------------------ C126 *)
(** C126: a fresh identifier is a version 4 UUID, any version 4 UUID can be one, and its text reads back. *)
Lemma c126_shape_pf :
  (forall w, version4 (new_v4 w) /\ uuid_of_string (uuid_str (new_v4 w)) = Some (new_v4 w)
     /\ String.get 14 (fresh_nonce w) = Some "4"%char
     /\ (exists c, String.get 19 (fresh_nonce w) = Some c /\ In c ["8"; "9"; "a"; "b"]%char))
  /\ (forall u, version4 u -> exists w, word w /\ new_v4 w = u)
  /\ forall w w', fresh_nonce w = fresh_nonce w' -> new_v4 w = new_v4 w'.
Proof.
  assert (Back : forall w, uuid_of_string (uuid_str (new_v4 w)) = Some (new_v4 w)) by (intros w; apply uuid_back, new_v4_word).
  split; [|split].
  - intros w. pose proof (new_v4_version4 w) as V. split; [exact V|]. split; [apply Back|]. unfold fresh_nonce. rewrite version_char, variant_char.
    destruct V as (_ & V & R). rewrite V. split; [reflexivity|]. eexists. split; [reflexivity|]. apply variant_group in R.
    remember ((new_v4 w / 2 ^ 60) mod 16) as x. clear Heqx. cbn [In] in R. destruct R as [<-|[<-|[<-|[<-|[]]]]]; cbn; auto 6.
  - intros u V. exists u. split; [exact (proj1 V)|now apply version4_fixed].
  - intros w w' E. unfold fresh_nonce in E. pose proof (Back w) as H. rewrite E, Back in H. now injection H as H.
Qed.

(** C126: with random words, any two version 4 UUIDs are equally likely. *)
Lemma c126_likely_pf :
  forall u u', version4 u -> version4 u' ->
    exists exchange : N -> N,
      (forall w, exchange (exchange w) = w) /\ (forall w, word w -> word (exchange w))
      /\ forall w, new_v4 w = u <-> new_v4 (exchange w) = u'.
Proof.
  intros u u' V V'. exists (fun w => N.lxor w (N.lxor u u')). split; [|split].
  - intros w. rewrite N.lxor_assoc, N.lxor_nilpotent. apply N.lxor_0_r.
  - intros w W. apply lxor_word; [exact W|]. apply lxor_word; [exact (proj1 V)|exact (proj1 V')].
  - intros w. rewrite exchange_v4 by assumption. split.
    + intros ->. rewrite <- N.lxor_assoc, N.lxor_nilpotent. apply N.lxor_0_l.
    + intros E. apply (f_equal (fun x => N.lxor x (N.lxor u u'))) in E. rewrite N.lxor_assoc, N.lxor_nilpotent, N.lxor_0_r in E.
      rewrite E, (N.lxor_comm u u'), <- N.lxor_assoc, N.lxor_nilpotent. apply N.lxor_0_l.
Qed.

Lemma preimages_count u l : NoDup l -> (forall w, In w l -> w < 2 ^ 128 /\ new_v4 w = u) -> count l <= 64.
Proof. intros Nd H. pose proof (preimages u l Nd H) as L. unfold count. lia. Qed.
(** C126: of the 2^128 random words, at most 2^6 lead to an identifier among each one guessed: whoever names [g] identifiers meets a
    fresh one with probability at most g / 2^122. *)
Lemma c126_guesses_pf :
  forall (guesses : list uuid) (hits : list N),
    NoDup hits -> (forall w, In w hits -> word w /\ In (new_v4 w) guesses) -> count hits * 2 ^ 122 <= count guesses * 2 ^ 128.
Proof.
  intros gs hits Nd H. pose proof (guessed (2 ^ 128) 64 new_v4 preimages_count gs hits Nd H) as L.
  apply N.le_trans with (64 * count gs * 2 ^ 122); [now apply N.mul_le_mono_r|]. apply N.eq_le_incl. change (2 ^ 128) with (64 * 2 ^ 122). ring.
Qed.

(** C126: of the sequences of [n] random words, at most a fraction of n (n - 1) / 2^123 leads to two equal identifiers. *)
Lemma c126_collisions_pf :
  forall (n : nat) (draws : list (list N)),
    NoDup draws -> (forall d, In d draws -> length d = n /\ Forall word d /\ ~ NoDup (map new_v4 d)) ->
    count draws * 2 ^ 123 <= N.of_nat n * (N.of_nat n - 1) * (2 ^ 128) ^ N.of_nat n.
Proof.
  intros n draws Nd H. pose proof (collisions (2 ^ 128) 64 new_v4 preimages_count n draws Nd) as C.
  assert (H' : forall d, In d draws -> tuple (2 ^ 128) n d /\ ~ NoDup (map new_v4 d)) by (intros d Hd; destruct (H d Hd) as (L & F & X); split; [split; assumption|exact X]).
  specialize (C H'). remember ((2 ^ 128) ^ N.of_nat n) as P eqn:EP. clear EP H H'.
  apply (N.mul_le_mono_pos_l _ _ 64); [reflexivity|].
  apply N.le_trans with (2 * count draws * 2 ^ 128); [|apply N.le_trans with (N.of_nat n * (N.of_nat n - 1) * 64 * P); [exact C|apply N.eq_le_incl; ring]].
  apply N.eq_le_incl. change (2 ^ 128) with (32 * 2 ^ 123). ring.
Qed.

(** C126: the library's methods store a request under a fresh identifier, change no other session, and return that identifier. *)
Lemma c126_build_pf :
  forall (url_parse : string -> option url) (w : N) (b : request_builder) (contended : bool) (m m' : store) (u : uuid),
    (forall wm dest, build_fresh url_parse w b wm contended m = (m', Ok (u, dest)) ->
       u = new_v4 w /\ (exists s, st_get u m' = Some s /\ s_uuid s = u) /\ forall u', u' <> u -> st_get u' m' = st_get u' m)
    /\ (forall jwt, build_dc_api_fresh url_parse w b contended m = (m', Ok (u, jwt)) ->
       u = new_v4 w /\ (exists s, st_get u m' = Some s /\ s_uuid s = u) /\ forall u', u' <> u -> st_get u' m' = st_get u' m).
Proof.
  intros up w b c m m' u. split.
  - intros wm dest H. unfold build_fresh, build in H. destruct (build_with_session_id up b (new_v4 w) wm c m) as [m1 [d|e]] eqn:E; [|discriminate H].
    injection H as -> <- ->. destruct (c29_build_pf _ _ _ _ _ _ _ _ E) as (s & ind & ep & G & O & U & _). split; [reflexivity|]. split; [now exists s|exact O].
  - intros jwt H. unfold build_dc_api_fresh in H. destruct (c29_build_dc_api_pf _ _ _ _ _ _ _ _ H) as (-> & s & G & O & U & _). split; [reflexivity|]. split; [now exists s|exact O].
Qed.

(** C126: a fresh request takes the place of a stored session for at most 2^6 words for each of them. *)
Lemma c126_replaced_pf :
  forall (m : store) (words : list N),
    NoDup words -> (forall w, In w words -> word w /\ st_get (new_v4 w) m <> None) -> count words * 2 ^ 122 <= count m * 2 ^ 128.
Proof.
  intros m ws Nd H. replace (count m) with (count (map fst m)) by (unfold count; now rewrite map_length).
  apply c126_guesses_pf; [exact Nd|]. intros w Hw. destruct (H w Hw) as [W G]. split; [exact W|].
  destruct (st_get (new_v4 w) m) as [s|] eqn:E; [|now destruct G]. apply st_get_in in E. change (new_v4 w) with (fst (new_v4 w, s)). now apply in_map.
Qed.

Lemma one_of {A} (f : A -> bool) l x y : (length (filter f l) <= 1)%nat -> In x l -> In y l -> f x = true -> f y = true -> x = y.
Proof.
  intros L X Y Fx Fy. assert (Ix : In x (filter f l)) by now apply filter_In. assert (Iy : In y (filter f l)) by now apply filter_In.
  destruct (filter f l) as [|z [|z' r]]; [destruct Ix| |cbn in L; lia]. destruct Ix as [<-|[]], Iy as [<-|[]]. reflexivity.
Qed.
(** C126: calls with fresh identifiers that do not collide give no two requests the same identifier: C122 and C125 apply, whatever
    the interleaving and the session store. *)
Lemma c126_apart_pf :
  forall (url_parse : string -> option url) (S : Type) (st : session_store S) (m0 : S) (y : any_sys S) (words : nat -> N),
    any_reachable url_parse S st m0 y ->
    (forall i c e u, In (i, (c, e)) (an_log y) -> builds c u -> u = new_v4 (words i)) ->
    NoDup (map new_v4 (map words (seq 0 (an_started y)))) ->
    ids_apart (map snd (an_log y)).
Proof.
  intros up S st m0 y ws R Fr Nd u s s' [U (c & H)] [U' (c' & H')].
  apply in_map_iff in H as ((i & ce) & E & H). cbn in E. subst ce. apply in_map_iff in H' as ((j & ce) & E & H'). cbn in E. subst ce.
  destruct (asked_initiate _ _ _ _ _ _ _ _ _ R H) as [B _]. destruct (asked_initiate _ _ _ _ _ _ _ _ _ R H') as [B' _].
  pose proof (Fr _ _ _ _ H B) as Ei. pose proof (Fr _ _ _ _ H' B') as Ej. pose proof (winv_reachable _ _ _ _ R) as W.
  destruct (w_log _ _ W _ _ _ H) as [Li _]. destruct (w_log _ _ W _ _ _ H') as [Lj _].
  assert (Ij : i = j).
  { rewrite map_map in Nd. rewrite NoDup_nth with (d := 0) in Nd. rewrite map_length, seq_length in Nd.
    assert (Nth : forall k, (k < an_started y)%nat -> nth k (map (fun x => new_v4 (ws x)) (seq 0 (an_started y))) 0 = new_v4 (ws k)).
    { intros k Lk. rewrite (nth_indep _ 0 (new_v4 (ws 0%nat))) by (now rewrite map_length, seq_length). rewrite (map_nth (fun x => new_v4 (ws x))). now rewrite seq_nth by exact Lk. }
    apply Nd; [exact Li|exact Lj|]. rewrite !Nth by assumption. congruence. }
  subst j. pose proof (proj1 (c125_once_pf up S st m0 y i c (Err "") R)) as Once. unfold times in Once.
  assert (X : (i, (c, EvInitiate s (Ok tt))) = (i, (c', EvInitiate s' (Ok tt)))).
  { apply (one_of _ _ _ _ Once H H'); cbn [fst snd]; rewrite Nat.eqb_refl; [now destruct c|now destruct c']. }
  injection X as _ ->. apply same_refl.
Qed.

(* ------------------------------------------------------------ examples *)
Example c126_shape_ex :
  fresh_nonce 0 = "00000000-0000-4000-8000-000000000000" /\ fresh_nonce (2 ^ 128 - 1) = "ffffffff-ffff-4fff-bfff-ffffffffffff"
  /\ fresh_nonce 0x0123456789abcdef0123456789abcdef = "01234567-89ab-4def-8123-456789abcdef".
Proof. vm_compute. auto. Qed.
Example c126_likely_ex : version4 (new_v4 0) /\ version4 (new_v4 1) /\ new_v4 0 <> new_v4 1.
Proof. split; [apply new_v4_version4|]. split; [apply new_v4_version4|]. vm_compute. discriminate. Qed.
Example c126_guesses_ex :
  let hits := [1; 1 + 2 ^ 62; 1 + 2 ^ 77] in
  NoDup hits /\ forall w, In w hits -> word w /\ In (new_v4 w) [new_v4 1].
Proof.
  cbv zeta. split.
  - repeat constructor; cbn [In]; intuition discriminate.
  - intros w [<-|[<-|[<-|[]]]]; (split; [reflexivity|left; vm_compute; reflexivity]).
Qed.
Example c126_collisions_ex :
  let draws := [[1; 1]; [1; 1 + 2 ^ 62]] in
  NoDup draws /\ forall d, In d draws -> length d = 2%nat /\ Forall word d /\ ~ NoDup (map new_v4 d).
Proof.
  cbv zeta. split.
  - repeat constructor; cbn [In]; intuition discriminate.
  - intros d [<-|[<-|[]]]; (split; [reflexivity|]; split; [repeat constructor|]); intros Nd; inversion Nd as [|? ? Ni _]; apply Ni; left; vm_compute; reflexivity.
Qed.
Example c126_build_ex :
  (exists m' u dest, build_fresh simple_parse 8 (toy_builder false toy_client) toy_wm false [] = (m', Ok (u, dest)))
  /\ uuid_str (new_v4 8) = "00000000-0000-4000-8000-000000000008".
Proof.
  split; [|vm_compute; reflexivity].
  assert (E : is_ok (snd (build_fresh simple_parse 8 (toy_builder false toy_client) toy_wm false [])) = true) by (vm_compute; reflexivity).
  destruct (build_fresh simple_parse 8 (toy_builder false toy_client) toy_wm false []) as [m' [[u d]|e]]; [exists m', u, d; reflexivity|discriminate E].
Qed.
Example c126_replaced_ex :
  exists m words, NoDup words /\ words <> [] /\ forall w, In w words -> word w /\ st_get (new_v4 w) m <> None.
Proof.
  assert (E : is_ok (snd (build_fresh simple_parse 8 (toy_builder false toy_client) toy_wm false [])) = true) by (vm_compute; reflexivity).
  destruct (build_fresh simple_parse 8 (toy_builder false toy_client) toy_wm false []) as [m' [[u d]|e]] eqn:B; [|discriminate E].
  destruct (proj1 (c126_build_pf simple_parse 8 (toy_builder false toy_client) false [] m' u) toy_wm d B) as (-> & (s & G & _) & _).
  exists m', [8]. split; [repeat constructor; intros []|]. split; [discriminate|]. intros w [<-|[]]. split; [reflexivity|]. rewrite G. discriminate.
Qed.
(** Two requests under fresh identifiers, stored in the journal of PfAnyStore.v. *)
Example c126_apart_ex :
  exists y (words : nat -> N), any_reachable simple_parse _ journal [] y
    /\ (forall i c e u, In (i, (c, e)) (an_log y) -> builds c u -> u = new_v4 (words i))
    /\ NoDup (map new_v4 (map words (seq 0 (an_started y)))) /\ an_started y = 2%nat /\ length (an_log y) = 2%nat.
Proof.
  assert (P : forall w, is_ok (rb_prepare simple_parse (toy_builder false toy_client) w toy_wm) = true -> exists s d,
    s_uuid s = w /\ code simple_parse (CBuild (toy_builder false toy_client) w toy_wm) = Initiate s (fun x => Done (rmap AUrl (rmap (fun _ => d) x)))).
  { intros w. destruct (rb_prepare simple_parse (toy_builder false toy_client) w toy_wm) as [[s d]|e] eqn:E; [|discriminate]. intros _. exists s, d.
    split; [now destruct (prepare_initial _ _ _ _ _ _ E)|]. unfold code, build_code. rewrite E. reflexivity. }
  destruct (P (new_v4 8)) as (s & d & U & C); [vm_compute; reflexivity|]. destruct (P (new_v4 9)) as (s' & d' & U' & C'); [vm_compute; reflexivity|].
  exists (mk_any [(new_v4 9, Some s'); (new_v4 8, Some s)] 2 [(1%nat, (CBuild (toy_builder false toy_client) (new_v4 9) toy_wm, Done (Ok (AUrl d')))); (0%nat, (CBuild (toy_builder false toy_client) (new_v4 8) toy_wm, Done (Ok (AUrl d))))]
    [(1%nat, (CBuild (toy_builder false toy_client) (new_v4 9) toy_wm, EvInitiate s' (Ok tt))); (0%nat, (CBuild (toy_builder false toy_client) (new_v4 8) toy_wm, EvInitiate s (Ok tt)))]),
    (fun i => match i with O => 8 | _ => 9 end).
  split; [|split; [|split; [|split; reflexivity]]].
  - eapply any_next; [eapply any_next; [eapply any_next; [eapply any_next; [apply any_init|]|]|]|].
    + apply (any_start _ _ _ [] 0 [] [] (CBuild (toy_builder false toy_client) (new_v4 8) toy_wm)).
    + rewrite C. apply (any_act _ _ _ _ [(new_v4 8, Some s)] 1 [] 0%nat _ _ (Done (Ok (AUrl d))) [] [] (EvInitiate s (Ok tt))).
      apply (on_initiate journal [] [(new_v4 8, Some s)] s (fun x => Done (rmap AUrl (rmap (fun _ => d) x))) (Ok tt)). left. rewrite <- U. split; [cbn; lia|split; reflexivity].
    + apply (any_start _ _ _ _ 1 _ _ (CBuild (toy_builder false toy_client) (new_v4 9) toy_wm)).
    + rewrite C'. apply (any_act _ _ _ _ _ 2 [] 1%nat _ _ (Done (Ok (AUrl d'))) _ _ (EvInitiate s' (Ok tt))).
      apply (on_initiate journal _ _ s' (fun x => Done (rmap AUrl (rmap (fun _ => d') x))) (Ok tt)). left. rewrite <- U'. split; [cbn; lia|split; reflexivity].
  - cbn [an_log]. intros i c e u [E|[E|[]]]; injection E as <- <- <-; (intros [(b & wm & E)|(b & E)]; [injection E as _ -> _; reflexivity|discriminate E]).
  - cbn [an_started seq map]. constructor; [intros [E|[]]; revert E; vm_compute; discriminate|]. constructor; [intros []|constructor].
Qed.
