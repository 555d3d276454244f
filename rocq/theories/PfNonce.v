(** Proofs about random nonces (C64). *)
From Coq Require Import Lia ZArith ZifyN ZifyNat ZifyBool.
From Verif Require Import Base Params SpecObject PfParams.
Local Open Scope N_scope.

Definition unit_ : N := 67108864.
Definition swap (i j x : N) : N := if x =? i then j else if x =? j then i else x.
Definition swap_word (i j w : N) : N := swap i j (w / unit_) * unit_ + w mod unit_.
Fixpoint mirror (ws : list N) (l : list (N * N)) : list N :=
  match ws with
  | [] => []
  | w :: r =>
      match l with
      | [] => ws
      | (i, j) :: l' => if w / unit_ <? 62 then swap_word i j w :: mirror r l' else w :: mirror r l
      end
  end.

Lemma swap_word_div i j w : swap_word i j w / unit_ = swap i j (w / unit_).
Proof. unfold swap_word. rewrite N.div_add_l by discriminate. rewrite (N.div_small (w mod unit_)); [apply N.add_0_r|now apply N.mod_lt]. Qed.
Lemma swap_word_mod i j w : swap_word i j w mod unit_ = w mod unit_.
Proof. unfold swap_word. rewrite N.add_comm, N.mod_add by discriminate. now rewrite N.mod_mod. Qed.
Lemma swap_invol i j x : swap i j (swap i j x) = x.
Proof.
  unfold swap. destruct (N.eqb_spec x i) as [->|Hi].
  - destruct (N.eqb_spec j i) as [->|]; [reflexivity|now rewrite N.eqb_refl].
  - destruct (N.eqb_spec x j) as [->|Hj]; [now rewrite N.eqb_refl|].
    destruct (N.eqb_spec x i); [contradiction|]. destruct (N.eqb_spec x j); [contradiction|reflexivity].
Qed.
Lemma swap_sym i j x : swap i j x = swap j i x.
Proof. unfold swap. repeat match goal with |- context [if ?b then _ else _] => destruct b eqn:? end; lia. Qed.
Lemma swap_word_invol i j w : swap_word i j (swap_word i j w) = w.
Proof.
  unfold swap_word at 1. rewrite swap_word_div, swap_word_mod, swap_invol. rewrite N.mul_comm. symmetry. apply N.div_mod. discriminate.
Qed.
Lemma swap_small i j x : i < 62 -> j < 62 -> (swap i j x <? 62) = (x <? 62).
Proof. unfold swap. intros. repeat match goal with |- context [if ?b then _ else _] => destruct b eqn:? end; lia. Qed.

Definition small2 (p : N * N) : Prop := fst p < 62 /\ snd p < 62.
Lemma mirror_invol ws : forall l, Forall small2 l -> mirror (mirror ws l) l = ws.
Proof.
  induction ws as [|w r IH]; intros l Hl; [reflexivity|]. destruct l as [|(i, j) l']; [reflexivity|].
  cbn [mirror]. destruct (w / unit_ <? 62) eqn:E.
  - cbn [mirror]. inversion Hl as [|? ? (Hi & Hj) Hl']; subst. rewrite swap_word_div, swap_small, E by assumption.
    now rewrite swap_word_invol, IH.
  - cbn [mirror]. now rewrite E, IH.
Qed.
Lemma mirror_length ws : forall l, length (mirror ws l) = length ws.
Proof.
  induction ws as [|w r IH]; intros l; [reflexivity|]. destruct l as [|(i, j) l']; [reflexivity|].
  cbn [mirror]. destruct (w / unit_ <? 62); cbn [length]; now rewrite IH.
Qed.
Lemma mirror_range ws : forall l, Forall small2 l -> Forall (fun w => w < 2 ^ 32) ws -> Forall (fun w => w < 2 ^ 32) (mirror ws l).
Proof.
  induction ws as [|w r IH]; intros l Hl Hw; [exact Hw|]. destruct l as [|(i, j) l']; [exact Hw|].
  inversion Hw as [|? ? W R]; subst. cbn [mirror]. destruct (w / unit_ <? 62) eqn:E.
  - inversion Hl as [|? ? (Hi & Hj) Hl']; subst. constructor; [|now apply IH].
    cbn [fst snd] in *. pose proof (N.mod_lt w unit_ ltac:(discriminate)) as M. unfold swap_word.
    assert (S : swap i j (w / unit_) <= 61) by (pose proof (swap_small i j (w / unit_) Hi Hj); lia).
    unfold unit_ in *. change (2 ^ 32) with 4294967296. lia.
  - constructor; [exact W|now apply IH].
Qed.
Lemma mirror_flip ws : forall l, mirror ws (map (fun p => (snd p, fst p)) l) = mirror ws l.
Proof.
  induction ws as [|w r IH]; intros l; [reflexivity|]. destruct l as [|(i, j) l']; [reflexivity|].
  cbn [mirror map fst snd]. destruct (w / unit_ <? 62).
  - unfold swap_word. now rewrite swap_sym, IH.
  - f_equal. exact (IH ((i, j) :: l')).
Qed.

(** The pairs of indices of two texts. *)
Fixpoint paired (s t : string) (l : list (N * N)) : Prop :=
  match s, t, l with
  | EmptyString, EmptyString, [] => True
  | String a s', String b t', (i, j) :: l' =>
      i < 62 /\ j < 62 /\ (forall w, alnum_char w = Some a <-> w / unit_ = i) /\ (forall w, alnum_char w = Some b <-> w / unit_ = j)
      /\ paired s' t' l'
  | _, _, _ => False
  end.
Lemma paired_small s : forall t l, paired s t l -> Forall small2 l.
Proof.
  induction s as [|a s IH]; intros [|b t] [|(i, j) l]; cbn [paired]; try (intros []; fail); [intros _; constructor|].
  intros (Hi & Hj & _ & _ & P). constructor; [now split|eapply IH; exact P].
Qed.
Lemma paired_flip s : forall t l, paired s t l -> paired t s (map (fun p => (snd p, fst p)) l).
Proof.
  induction s as [|a s IH]; intros [|b t] [|(i, j) l]; cbn [paired map fst snd]; try (intros []; fail); [auto|].
  intros (Hi & Hj & A & B & P). auto 6.
Qed.
Lemma paired_exists s : forall t, String.length s = String.length t ->
  Forall alphanumeric (list_ascii_of_string s) -> Forall alphanumeric (list_ascii_of_string t) -> exists l, paired s t l.
Proof.
  induction s as [|a s IH]; intros [|b t] L Hs Ht; try discriminate; [exists []; exact I|].
  cbn [list_ascii_of_string] in *. inversion Hs as [|? ? Ha Hs']; subst. inversion Ht as [|? ? Hb Ht']; subst.
  injection L as L. destruct (IH t L Hs' Ht') as (l & P).
  destruct (uniform1 a Ha) as (i & (Hi & Ai) & _). destruct (uniform1 b Hb) as (j & (Hj & Bj) & _).
  exists ((i, j) :: l). cbn [paired]. auto.
Qed.

Lemma mirror_sample ws : forall s t l, paired s t l ->
  sample_string ws (String.length s) = Some s -> sample_string (mirror ws l) (String.length s) = Some t.
Proof.
  induction ws as [|w r IH]; intros s t l P H.
  - destruct s as [|a s]; [|discriminate]. destruct t, l; try destruct P. reflexivity.
  - destruct s as [|a s], t as [|b t], l as [|(i, j) l]; cbn [paired] in P; try (destruct P; fail); [reflexivity|].
    destruct P as (Hi & Hj & A & B & P). cbn [String.length] in *. rewrite draw_unfold in H. cbn [mirror].
    destruct (w / unit_ <? 62) eqn:E.
    + rewrite draw_unfold. destruct (alnum_char w) as [c|] eqn:C; [|apply uniform2 in C; unfold unit_ in E; lia].
      destruct (sample_string r (String.length s)) as [s'|] eqn:R; [|discriminate]. injection H as -> ->.
      rewrite (proj2 (B (swap_word i j w))).
      * now rewrite (IH s t l P R).
      * rewrite swap_word_div. apply A in C. unfold swap. rewrite C, N.eqb_refl. reflexivity.
    + rewrite draw_unfold. assert (C : alnum_char w = None) by (apply uniform2; unfold unit_ in E; lia). rewrite C in H |- *.
      exact (IH (String a s) (String b t) ((i, j) :: l) (conj Hi (conj Hj (conj A (conj B P)))) H).
Qed.

(** C64: for any two alphanumeric texts of the same length there is a way to exchange random words for random words, back and forth, that
    exchanges the draws of the one text with the draws of the other: with uniformly random words both are equally likely, also within any
    number of words. *)
Lemma c64_likely_pf : forall (n : nat) (s t : string),
  String.length s = n -> String.length t = n ->
  Forall alphanumeric (list_ascii_of_string s) -> Forall alphanumeric (list_ascii_of_string t) ->
  exists exchange : list N -> list N,
    (forall words, exchange (exchange words) = words)
    /\ (forall words, length (exchange words) = length words)
    /\ (forall words, Forall (fun w => w < 2 ^ 32) words -> Forall (fun w => w < 2 ^ 32) (exchange words))
    /\ (forall words, sample_string words n = Some s <-> sample_string (exchange words) n = Some t).
Proof.
  intros n s t Ls Lt Hs Ht. destruct (paired_exists s t (eq_trans Ls (eq_sym Lt)) Hs Ht) as (l & P).
  pose proof (paired_small _ _ _ P) as Sm. exists (fun words => mirror words l). split; [|split; [|split]].
  - intros words. now apply mirror_invol.
  - intros words. apply mirror_length.
  - intros words. now apply mirror_range.
  - intros words. split; intros H.
    + rewrite <- Ls in *. exact (mirror_sample _ _ _ _ P H).
    + rewrite <- Lt in H. apply (mirror_sample _ _ _ _ (paired_flip _ _ _ P)) in H. rewrite mirror_flip, mirror_invol in H by assumption.
      now rewrite Lt in H.
Qed.
Example c64_likely_ex :
  Forall alphanumeric (list_ascii_of_string "AB9") /\ Forall alphanumeric (list_ascii_of_string "zz0")
  /\ sample_string [0; 4294967295; 67108864; 4093640704] 3 = Some "AB9".
Proof.
  split; [|split; [|vm_compute; reflexivity]]; repeat (constructor; [unfold alphanumeric; cbn; lia|]); constructor.
Qed.
