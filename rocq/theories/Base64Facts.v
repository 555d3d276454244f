(** Lemmas about [Base64]. *)
From Verif Require Import Base BaseFacts Base64.
From Coq Require Import Lia ZifyBool ZifyN ZifyNat.
Ltac Zify.zify_post_hook ::= Z.div_mod_to_equations.

(** Strings in steps of three and four characters. *)
Lemma string_ind3 (P : string -> Prop) :
  P EmptyString -> (forall a, P (s1 a)) -> (forall a b, P (String a (s1 b))) ->
  (forall a b c r, P r -> P (String a (String b (String c r)))) -> forall s, P s.
Proof.
  intros H0 H1 H2 H3. fix IH 1. intros s.
  destruct s as [|a s]; [exact H0|].
  destruct s as [|b s]; [apply H1|].
  destruct s as [|c s]; [apply H2|].
  apply H3, IH.
Qed.

Lemma string_ind4 (P : string -> Prop) :
  P EmptyString -> (forall a, P (s1 a)) -> (forall a b, P (String a (s1 b))) ->
  (forall a b c, P (String a (String b (s1 c)))) ->
  (forall a b c d r, P r -> P (String a (String b (String c (String d r))))) -> forall s, P s.
Proof.
  intros H0 H1 H2 H3 H4. fix IH 1. intros s.
  destruct s as [|a s]; [exact H0|].
  destruct s as [|b s]; [apply H1|].
  destruct s as [|c s]; [apply H2|].
  destruct s as [|d s]; [apply H3|].
  apply H4, IH.
Qed.

Definition all64 : list N := map N.of_nat (seq 0 64).
Lemma all64_in n : (n < 64)%N -> In n all64.
Proof.
  intros H. unfold all64. apply in_map_iff. exists (N.to_nat n). split; [lia|].
  apply in_seq. lia.
Qed.

Lemma b64_val_sym al n : (n < 64)%N -> b64_val al (b64_sym al n) = Some n.
Proof.
  intros H. apply all64_in in H.
  assert (forallb (fun n => match b64_val al (b64_sym al n) with Some m => (m =? n)%N | None => false end) all64 = true) as A
    by (destruct al; vm_compute; reflexivity).
  rewrite forallb_forall in A. specialize (A n H).
  destruct (b64_val al (b64_sym al n)); [|discriminate].
  apply N.eqb_eq in A; subst; reflexivity.
Qed.

Definition all_ascii : list ascii := map (fun n => chr (N.of_nat n)) (seq 0 256).
Lemma all_ascii_in c : In c all_ascii.
Proof.
  unfold all_ascii. apply in_map_iff. exists (N.to_nat (byte c)). split.
  - rewrite N2Nat.id. apply chr_byte.
  - apply in_seq. pose proof (byte_lt c). lia.
Qed.

Lemma b64_sym_val al c n : b64_val al c = Some n -> (n < 64)%N /\ b64_sym al n = c.
Proof.
  intros H.
  assert (forallb (fun c => match b64_val al c with
                            | Some n => (n <? 64)%N && Ascii.eqb (b64_sym al n) c
                            | None => true end) all_ascii = true) as A
    by (destruct al; vm_compute; reflexivity).
  rewrite forallb_forall in A. specialize (A c (all_ascii_in c)). rewrite H in A.
  apply andb_true_iff in A as [A1 A2]. apply N.ltb_lt in A1. apply Ascii.eqb_eq in A2. auto.
Qed.

(** Arithmetic of the 6-bit/8-bit regrouping, in isolation. *)
Section Arith.
  Local Open Scope N_scope.
  Lemma dlt0 x0 x1 : x0 < 64 -> x1 < 64 -> x0 * 4 + x1 / 16 < 256.
  Proof. lia. Qed.
  Lemma dlt1 x1 x2 : x1 < 64 -> x2 < 64 -> x1 mod 16 * 16 + x2 / 4 < 256.
  Proof. lia. Qed.
  Lemma dlt2 x2 x3 : x2 < 64 -> x3 < 64 -> x2 mod 4 * 64 + x3 < 256.
  Proof. lia. Qed.
  Lemma d0 x0 x1 : x0 < 64 -> x1 < 64 -> (x0 * 4 + x1 / 16) / 4 = x0.
  Proof. lia. Qed.
  Lemma d1 x0 x1 x2 : x0 < 64 -> x1 < 64 -> x2 < 64 ->
    (x0 * 4 + x1 / 16) mod 4 * 16 + (x1 mod 16 * 16 + x2 / 4) / 16 = x1.
  Proof.
    intros. assert (x1 / 16 < 4) by lia. assert (x2 / 4 < 16) by lia.
    assert ((x0 * 4 + x1 / 16) mod 4 = x1 / 16) as -> by lia.
    assert ((x1 mod 16 * 16 + x2 / 4) / 16 = x1 mod 16) as -> by lia. lia.
  Qed.
  Lemma d1' x0 x1 : x0 < 64 -> x1 < 64 -> x1 mod 16 = 0 -> (x0 * 4 + x1 / 16) mod 4 * 16 = x1.
  Proof. intros. assert ((x0 * 4 + x1 / 16) mod 4 = x1 / 16) as -> by lia. lia. Qed.
  Lemma d2 x1 x2 x3 : x1 < 64 -> x2 < 64 -> x3 < 64 ->
    (x1 mod 16 * 16 + x2 / 4) mod 16 * 4 + (x2 mod 4 * 64 + x3) / 64 = x2.
  Proof.
    intros. assert (x2 / 4 < 16) by lia.
    assert ((x1 mod 16 * 16 + x2 / 4) mod 16 = x2 / 4) as -> by (generalize (x1 mod 16); lia).
    assert ((x2 mod 4 * 64 + x3) / 64 = x2 mod 4) as -> by (generalize (x2 mod 4); lia). lia.
  Qed.
  Lemma d2' x1 x2 : x1 < 64 -> x2 < 64 -> x2 mod 4 = 0 ->
    (x1 mod 16 * 16 + x2 / 4) mod 16 * 4 = x2.
  Proof.
    intros. assert (x2 / 4 < 16) by lia.
    assert ((x1 mod 16 * 16 + x2 / 4) mod 16 = x2 / 4) as -> by (generalize (x1 mod 16); lia). lia.
  Qed.
  Lemma d3 x2 x3 : x3 < 64 -> (x2 mod 4 * 64 + x3) mod 64 = x3.
  Proof. generalize (x2 mod 4); lia. Qed.

  Lemma elt0 a : a < 256 -> a / 4 < 64.
  Proof. lia. Qed.
  Lemma elt1 a b : b < 256 -> a mod 4 * 16 + b / 16 < 64.
  Proof. lia. Qed.
  Lemma elt1' a : a mod 4 * 16 < 64.
  Proof. lia. Qed.
  Lemma elt2 b c : c < 256 -> b mod 16 * 4 + c / 64 < 64.
  Proof. lia. Qed.
  Lemma elt2' b : b mod 16 * 4 < 64.
  Proof. lia. Qed.
  Lemma elt3 c : c mod 64 < 64.
  Proof. lia. Qed.
  Lemma e0 a b : b < 256 -> a / 4 * 4 + (a mod 4 * 16 + b / 16) / 16 = a.
  Proof.
    intros. assert (b / 16 < 16) by lia.
    assert ((a mod 4 * 16 + b / 16) / 16 = a mod 4) as -> by (generalize (a mod 4); lia). lia.
  Qed.
  Lemma e0' a : a / 4 * 4 + a mod 4 * 16 / 16 = a.
  Proof. assert (a mod 4 * 16 / 16 = a mod 4) as -> by (generalize (a mod 4); lia). lia. Qed.
  Lemma e1 a b c : b < 256 -> c < 256 ->
    (a mod 4 * 16 + b / 16) mod 16 * 16 + (b mod 16 * 4 + c / 64) / 4 = b.
  Proof.
    intros. assert (b / 16 < 16) by lia. assert (c / 64 < 4) by lia.
    assert ((a mod 4 * 16 + b / 16) mod 16 = b / 16) as -> by (generalize (a mod 4); lia).
    assert ((b mod 16 * 4 + c / 64) / 4 = b mod 16) as -> by (generalize (b mod 16); lia). lia.
  Qed.
  Lemma e1' a b : b < 256 -> (a mod 4 * 16 + b / 16) mod 16 * 16 + b mod 16 * 4 / 4 = b.
  Proof.
    intros. assert (b / 16 < 16) by lia.
    assert ((a mod 4 * 16 + b / 16) mod 16 = b / 16) as -> by (generalize (a mod 4); lia).
    assert (b mod 16 * 4 / 4 = b mod 16) as -> by (generalize (b mod 16); lia). lia.
  Qed.
  Lemma e2 b c : c < 256 -> (b mod 16 * 4 + c / 64) mod 4 * 64 + c mod 64 = c.
  Proof.
    intros. assert (c / 64 < 4) by lia.
    assert ((b mod 16 * 4 + c / 64) mod 4 = c / 64) as -> by (generalize (b mod 16); lia). lia.
  Qed.
  Lemma ez1 a : (a mod 4 * 16) mod 16 =? 0 = true.
  Proof. generalize (a mod 4); lia. Qed.
  Lemma ez2 b : (b mod 16 * 4) mod 4 =? 0 = true.
  Proof. generalize (b mod 16); lia. Qed.
End Arith.

Lemma b64_rt al s : b64_decode al (b64_encode al false s) = Some s.
Proof.
  induction s as [|a|a b|a b c r IH] using string_ind3.
  - reflexivity.
  - cbn [b64_encode s1 b64_decode]. pose proof (byte_lt a).
    rewrite !b64_val_sym by auto using elt0, elt1'.
    rewrite ez1, e0', chr_byte. reflexivity.
  - cbn [b64_encode s1 b64_decode]. pose proof (byte_lt a). pose proof (byte_lt b).
    rewrite !b64_val_sym by auto using elt0, elt1, elt2'.
    rewrite ez2, e0, e1', !chr_byte by assumption. reflexivity.
  - cbn [b64_encode b64_decode]. pose proof (byte_lt a). pose proof (byte_lt b). pose proof (byte_lt c).
    rewrite !b64_val_sym by auto using elt0, elt1, elt2, elt3. rewrite IH.
    rewrite e0, e1, e2, !chr_byte by assumption. reflexivity.
Qed.

(** Only canonical encodings decode. *)
Lemma b64_canonical al t : forall s, b64_decode al t = Some s -> t = b64_encode al false s.
Proof.
  induction t as [|a|a b|a b c|a b c d r IH] using string_ind4; intros s H.
  - inversion H; reflexivity.
  - discriminate.
  - cbn [b64_decode s1] in H.
    destruct (b64_val al a) as [x0|] eqn:E0; [|discriminate].
    destruct (b64_val al b) as [x1|] eqn:E1; [|discriminate].
    apply b64_sym_val in E0 as [L0 <-]. apply b64_sym_val in E1 as [L1 <-].
    destruct (x1 mod 16 =? 0)%N eqn:E; [|discriminate]. apply N.eqb_eq in E.
    inversion H; subst; clear H. cbn [b64_encode s1].
    rewrite byte_chr by auto using dlt0. rewrite d0, d1' by assumption. reflexivity.
  - cbn [b64_decode s1] in H.
    destruct (b64_val al a) as [x0|] eqn:E0; [|discriminate].
    destruct (b64_val al b) as [x1|] eqn:E1; [|discriminate].
    destruct (b64_val al c) as [x2|] eqn:E2; [|discriminate].
    apply b64_sym_val in E0 as [L0 <-]. apply b64_sym_val in E1 as [L1 <-]. apply b64_sym_val in E2 as [L2 <-].
    destruct (x2 mod 4 =? 0)%N eqn:E; [|discriminate]. apply N.eqb_eq in E.
    inversion H; subst; clear H. cbn [b64_encode s1].
    rewrite !byte_chr by auto using dlt0, dlt1. rewrite d0, d1, d2' by assumption. reflexivity.
  - cbn [b64_decode] in H.
    destruct (b64_val al a) as [x0|] eqn:E0; [|discriminate].
    destruct (b64_val al b) as [x1|] eqn:E1; [|discriminate].
    destruct (b64_val al c) as [x2|] eqn:E2; [|discriminate].
    destruct (b64_val al d) as [x3|] eqn:E3; [|discriminate].
    apply b64_sym_val in E0 as [L0 <-]. apply b64_sym_val in E1 as [L1 <-].
    apply b64_sym_val in E2 as [L2 <-]. apply b64_sym_val in E3 as [L3 <-].
    destruct (b64_decode al r) as [t|] eqn:Er; [|discriminate].
    inversion H; subst; clear H. cbn [b64_encode].
    rewrite !byte_chr by auto using dlt0, dlt1, dlt2. rewrite <- (IH t eq_refl).
    rewrite d0, d1, d2, d3 by assumption. reflexivity.
Qed.

Lemma b64_decode_inj al t t' s : b64_decode al t = Some s -> b64_decode al t' = Some s -> t = t'.
Proof. intros H H'. apply b64_canonical in H, H'. congruence. Qed.

Lemma b64_encode_inj al s s' : b64_encode al false s = b64_encode al false s' -> s = s'.
Proof. intros H. apply (f_equal (b64_decode al)) in H. rewrite !b64_rt in H. congruence. Qed.

(** Alphabet of the output. *)
Definition b64_char (al : b64_alphabet) (c : ascii) : bool :=
  match b64_val al c with Some _ => true | None => false end.

Lemma b64_sym_char al n : (n < 64)%N -> b64_char al (b64_sym al n) = true.
Proof. intros H. unfold b64_char. rewrite b64_val_sym by exact H. reflexivity. Qed.

Lemma b64_encode_chars al s : str_all (b64_char al) (b64_encode al false s) = true.
Proof.
  induction s as [|a|a b|a b c r IH] using string_ind3.
  - reflexivity.
  - pose proof (byte_lt a). cbn [b64_encode s1 str_all].
    rewrite !b64_sym_char by auto using elt0, elt1'. reflexivity.
  - pose proof (byte_lt a). pose proof (byte_lt b). cbn [b64_encode s1 str_all].
    rewrite !b64_sym_char by auto using elt0, elt1, elt2'. reflexivity.
  - pose proof (byte_lt a). pose proof (byte_lt b). pose proof (byte_lt c). cbn [b64_encode str_all].
    rewrite !b64_sym_char by auto using elt0, elt1, elt2, elt3. exact IH.
Qed.

Lemma b64url_no_dot s : has_char "." (b64url_encode s) = false.
Proof. apply (has_char_all _ (b64_char UrlSafe)); [reflexivity|apply b64_encode_chars]. Qed.

(** Padding is exactly what trimming removes. *)
Lemma trim_end_nochar c s : has_char c s = false -> trim_end c s = s.
Proof.
  induction s as [|d s IH]; cbn; [reflexivity|].
  destruct (Ascii.eqb_spec c d); cbn; [discriminate|]. intros H. rewrite (IH H).
  destruct s; reflexivity.
Qed.

Lemma trim_end_app_pad c s p : has_char c s = false -> str_all (Ascii.eqb c) p = true ->
  trim_end c (s +:+ p) = s.
Proof.
  intros Hs Hp. assert (Hpe : trim_end c p = EmptyString).
  { induction p as [|d p IH]; [reflexivity|]. cbn in *. apply andb_true_iff in Hp as [Hd Hp].
    rewrite (IH Hp), Hd. reflexivity. }
  induction s as [|d s IH]; [exact Hpe|]. cbn in *. apply orb_false_iff in Hs as [Hd Hs].
  rewrite (IH Hs). rewrite Hd. destruct s; reflexivity.
Qed.

Lemma b64_pad_suffix al s : exists p, b64_encode al true s = b64_encode al false s +:+ p /\
  str_all (Ascii.eqb "=") p = true.
Proof.
  induction s as [|a|a b|a b c r (p & E & Hp)] using string_ind3.
  - exists EmptyString; split; reflexivity.
  - exists "=="; split; reflexivity.
  - exists "="; split; reflexivity.
  - exists p. cbn [b64_encode]. rewrite E. split; [reflexivity|exact Hp].
Qed.

Lemma trim_padded s : trim_end "=" (b64std_encode s) = b64_encode Std false s.
Proof.
  unfold b64std_encode. destruct (b64_pad_suffix Std s) as (p & -> & Hp).
  apply trim_end_app_pad; [|exact Hp].
  apply (has_char_all _ (b64_char Std)); [reflexivity|apply b64_encode_chars].
Qed.

Lemma x5c_decode s : b64std_nopad_decode (trim_end "=" (b64std_encode s)) = Some s.
Proof. rewrite trim_padded. apply b64_rt. Qed.
