(** Numbers, splitting and joining, for the proofs about hosts. *)
From Coq Require Import Lia.
From Verif Require Import Base BaseFacts Utf8 JsonText JsonTextFacts UrlEncoded Url WebUrl WebHost SpecWebUrl SpecHost PfWebUrl PfWebReads.

(* ------------------------------------------------------------ digits *)
Lemma hex_iff c d : hex_val c = Some d <-> digit c d.
Proof.
  unfold hex_val, digit, in_range. pose proof (byte_lt c).
  destruct ((48 <=? byte c)%N && (byte c <=? 57)%N) eqn:E1.
  { apply andb_true_iff in E1 as [A B]. apply N.leb_le in A, B. split; [intros [= <-]; lia|]. intros D. f_equal. lia. }
  destruct ((97 <=? byte c)%N && (byte c <=? 102)%N) eqn:E2.
  { apply andb_true_iff in E2 as [A B]. apply N.leb_le in A, B. split; [intros [= <-]; lia|]. intros D. f_equal. lia. }
  destruct ((65 <=? byte c)%N && (byte c <=? 70)%N) eqn:E3.
  { apply andb_true_iff in E3 as [A B]. apply N.leb_le in A, B. split; [intros [= <-]; lia|]. intros D. f_equal. lia. }
  rewrite !andb_false_iff, !N.leb_gt in *. split; [discriminate|]. lia.
Qed.
Lemma unhex_iff c d : unhex c = Some d <-> digit c d.
Proof. exact (hex_iff c d). Qed.
Lemma digit_small c d : digit c d -> (d < 16)%N. Proof. unfold digit. lia. Qed.
Lemma digit_fun c d e : digit c d -> digit c e -> d = e.
Proof. rewrite <- !hex_iff. congruence. Qed.
Lemma digit_dec c d : digit c d -> (d < 10)%N -> is_digit c = true.
Proof. unfold digit, is_digit, in_range. intros H L. apply andb_true_iff. rewrite !N.leb_le. lia. Qed.
Lemma dec_digit c : is_digit c = true -> digit c (byte c - 48).
Proof. unfold digit, is_digit, in_range. rewrite andb_true_iff, !N.leb_le. lia. Qed.

Lemma str_snoc (s : string) : s = "" \/ exists a c, s = a +:+ String c "".
Proof.
  induction s as [|c s IH]; [now left|]. right. destruct IH as [->|(a & d & ->)]; [now exists "", c|]. now exists (String c a), d.
Qed.
Lemma snoc_inj a c b d : a +:+ String c "" = b +:+ String d "" -> a = b /\ c = d.
Proof.
  intros E. assert (a = b).
  { destruct (sapp_inv_len a (String c "") b (String d "")) as [X _]; [|exact E|exact X].
    apply (f_equal String.length) in E. rewrite !slen_app in E. cbn [String.length] in E. lia. }
  subst b. apply sapp_inv_head in E. now injection E as ->.
Qed.

Lemma radix_snoc r s c : forall a, radix_val r a (s +:+ String c "")
  = match radix_val r a s with
    | Some v => match hex_val c with Some d => if (d <? r)%N then Some (r * v + d)%N else None | None => None end
    | None => None
    end.
Proof.
  induction s as [|x s IH]; intros a; cbn [String.append radix_val].
  - destruct (hex_val c); [|reflexivity]. destruct (_ <? _)%N; reflexivity.
  - destruct (hex_val x); [|reflexivity]. destruct (_ <? _)%N; [apply IH|reflexivity].
Qed.
Lemma radix_iff r s v : radix_val r 0 s = Some v <-> number r s v.
Proof.
  split.
  - intros H. remember (String.length s) as n eqn:E. revert s v E H. induction n as [|n IH]; intros s v E H.
    + destruct s; [|discriminate]. injection H as <-. constructor.
    + destruct (str_snoc s) as [->|(a & c & ->)]; [discriminate|]. rewrite slen_app in E. cbn in E.
      rewrite radix_snoc in H. destruct (radix_val r 0 a) as [w|] eqn:W; [|discriminate].
      destruct (hex_val c) as [d|] eqn:D; [|discriminate]. destruct (N.ltb_spec d r); [|discriminate]. injection H as <-.
      constructor; [|now apply hex_iff|assumption]. apply IH; [lia|exact W].
  - induction 1 as [|s c v d _ IH D L]; [reflexivity|]. rewrite radix_snoc, IH. apply hex_iff in D. rewrite D.
    now rewrite (proj2 (N.ltb_lt _ _) L).
Qed.
Lemma number_fun r s v w : number r s v -> number r s w -> v = w.
Proof. rewrite <- !radix_iff. congruence. Qed.
Lemma number_bound r s v : number r s v -> (v < r ^ N.of_nat (String.length s))%N.
Proof.
  induction 1 as [|s c v d _ IH D L]; [cbn; lia|]. rewrite slen_app. cbn [String.length].
  rewrite Nat2N.inj_add, N.pow_add_r. change (N.of_nat 1) with 1%N. rewrite N.pow_1_r. nia.
Qed.
Lemma number_chars r s v c : number r s v -> In c (chars s) -> exists d, digit c d /\ (d < r)%N.
Proof.
  induction 1 as [|s x v d _ IH D L]; [intros []|]. intros I. rewrite in_chars, has_char_app in I. apply orb_true_iff in I as [I|I].
  - apply IH. now apply in_chars.
  - cbn in I. rewrite orb_false_r in I. apply Ascii.eqb_eq in I as ->. eauto.
Qed.
(** Without capitals and leading zeros there is one way to write a number. *)
Definition canonical (s : string) : Prop :=
  s <> "" /\ (forall c, In c (chars s) -> ~ (65 <= byte c <= 70)%N) /\ (forall c r, s = String "0" (String c r) -> False).
Lemma digit_inj c e d : digit c d -> digit e d -> ~ (65 <= byte c <= 70)%N -> ~ (65 <= byte e <= 70)%N -> c = e.
Proof. unfold digit. intros. apply byte_inj. lia. Qed.
Lemma number_zero r s : (0 < r)%N -> number r s 0 -> forall c t, s = String c t -> ~ (65 <= byte c <= 70)%N -> c = "0"%char.
Proof.
  intros R H. remember 0%N as v eqn:V. induction H as [|s x v d H IH D L]; [discriminate|]. intros c t E U.
  assert (v = 0%N /\ d = 0%N) as [-> ->] by nia.
  destruct s as [|y s].
  - injection E as <- <-. refine (digit_inj x "0"%char 0 D _ U _); [left; cbn; lia|cbn; lia].
  - injection E as <- _. exact (IH eq_refl L y s eq_refl U).
Qed.
Lemma canonical_init s c : s <> "" -> canonical (s +:+ String c "") -> canonical s.
Proof.
  intros N (_ & U & Z). split; [exact N|]. split.
  - intros d I. apply U. rewrite in_chars, has_char_app. apply in_chars in I. now rewrite I.
  - intros d r ->. eapply Z. reflexivity.
Qed.
Lemma canonical_long r s c v : (0 < r)%N -> s <> "" -> canonical (s +:+ String c "") -> number r s v -> v <> 0%N.
Proof.
  intros R N C H ->. destruct s as [|x s]; [congruence|]. destruct C as (_ & U & Z).
  assert (x = "0"%char) as ->. { eapply number_zero; [exact R|exact H|reflexivity|]. apply U. cbn. now left. }
  destruct s as [|y s]; cbn [String.append] in Z; eapply Z; reflexivity.
Qed.
Lemma number_unique r s t v : (0 < r)%N -> number r s v -> number r t v -> canonical s -> canonical t -> s = t.
Proof.
  intros R. remember (String.length s) as n eqn:E. revert s t v E. induction n as [|n IH]; intros s t v E Hs Ht Cs Ct.
  { destruct s; [|discriminate]. now destruct Cs. }
  inversion Hs as [|s' c vs ds Hs' Ds Ls]; subst; [now destruct Cs|].
  inversion Ht as [|t' e vt dt Ht' Dt Lt Et Ev]; subst; [now destruct Ct|].
  assert (vt = vs /\ dt = ds) as [-> ->].
  { assert (vt = vs) by nia. subst. split; [reflexivity|nia]. }
  assert (c = e) as ->.
  { eapply digit_inj; [exact Ds|exact Dt| |]; [apply (proj1 (proj2 Cs))|apply (proj1 (proj2 Ct))];
      rewrite in_chars, has_char_app; cbn; rewrite Ascii.eqb_refl; now rewrite orb_true_r. }
  f_equal. destruct (string_dec s' "") as [->|Ns]; destruct (string_dec t' "") as [->|Nt]; [reflexivity| | |].
  - inversion Hs' as [E0 V0|]; [|destruct s; discriminate]. subst. now destruct (canonical_long r t' e 0 R Nt Ct Ht').
  - inversion Ht' as [E0 V0|]; [|destruct s; discriminate]. subst. now destruct (canonical_long r s' e 0 R Ns Cs Hs').
  - eapply (IH s' t'); eauto using canonical_init. rewrite slen_app in E. cbn in E. lia.
Qed.

(* ------------------------------------------------------------ decimal numbers *)
Lemma digits_number s : str_all is_digit s = true -> number 10 s (digits_val 0 s).
Proof.
  remember (String.length s) as n eqn:E. revert s E. induction n as [|n IH]; intros s E H.
  { destruct s; [|discriminate]. constructor. }
  destruct (str_snoc s) as [->|(a & c & ->)]; [discriminate|]. rewrite slen_app in E. cbn in E.
  apply all_app_str in H as [Ha Hc]. cbn in Hc. rewrite andb_true_r in Hc. change (String c "") with (s1 c). rewrite digits_val_snoc.
  constructor; [apply IH; [lia|exact Ha]|now apply dec_digit|]. unfold is_digit, in_range in Hc. rewrite andb_true_iff, !N.leb_le in Hc. lia.
Qed.
Lemma number_digits s v : number 10 s v -> str_all is_digit s = true.
Proof.
  intros H. apply str_all_chars. intros c I. destruct (number_chars _ _ _ _ H I) as (d & D & L). now apply (digit_dec c d).
Qed.
Lemma digit_not_upper c : is_digit c = true -> ~ (65 <= byte c <= 70)%N.
Proof. unfold is_digit, in_range. rewrite andb_true_iff, !N.leb_le. lia. Qed.
Lemma int_canonical s : int_part_ok s = true <-> str_all is_digit s = true /\ canonical s.
Proof.
  unfold int_part_ok, nonempty_digits, canonical. split.
  - intros H. apply andb_true_iff in H as [A B]. destruct s as [|c s]; [discriminate|]. split; [exact A|]. split; [discriminate|]. split.
    + intros d I. apply digit_not_upper. now apply (proj1 (str_all_chars _ _) A).
    + intros d r E. injection E as -> ->. discriminate B.
  - intros (A & N & _ & Z). destruct s as [|c s]; [congruence|]. rewrite A. destruct s as [|d s]; [reflexivity|].
    destruct (Ascii.eqb_spec c "0") as [->|]; [now destruct (Z d s)|reflexivity].
Qed.
Lemma dec_canonical n : number 10 (dec_N n) n /\ canonical (dec_N n).
Proof.
  pose proof (int_part_ok_dec n) as H. apply int_canonical in H as [D C]. split; [|exact C].
  destruct (dec_N_spec n) as (_ & _ & V & _). rewrite <- V at 2. now apply digits_number.
Qed.
Lemma dec_unique s n : canonical s -> number 10 s n -> s = dec_N n.
Proof. intros C H. destruct (dec_canonical n) as [H' C']. eapply number_unique; [|exact H|exact H'|exact C|exact C']. lia. Qed.

(* ------------------------------------------------------------ splitting and joining *)
Lemma split_app c a l : split_all c (a +:+ String c l) = split_all c a ++ split_all c l.
Proof.
  induction a as [|x a IH]; cbn [String.append split_all].
  - rewrite Ascii.eqb_refl. reflexivity.
  - rewrite IH. destruct (Ascii.eqb c x); [reflexivity|].
    destruct (split_all c a) as [|p ps] eqn:E; [now destruct (split_all_nonempty c a)|reflexivity].
Qed.
Lemma split_none c s : has_char c s = false -> split_all c s = [s].
Proof.
  induction s as [|x s IH]; [reflexivity|]. cbn [has_char split_all]. rewrite orb_false_iff. intros [-> H]. now rewrite IH.
Qed.
Lemma join_cons sep x y l : join sep (x :: y :: l) = x +:+ sep +:+ join sep (y :: l). Proof. reflexivity. Qed.
Lemma split_join c l : l <> [] -> (forall s, In s l -> has_char c s = false) -> split_all c (join (s1 c) l) = l.
Proof.
  induction l as [|x l IH]; [congruence|]. intros _ H. destruct l as [|y l].
  - apply split_none. apply H. now left.
  - rewrite join_cons. cbn [s1 String.append]. rewrite split_app, split_none by (apply H; now left). cbn [app]. f_equal.
    apply IH; [discriminate|]. intros s I. apply H. now right.
Qed.
Lemma join_app sep a b : a <> [] -> b <> [] -> join sep (a ++ b) = join sep a +:+ sep +:+ join sep b.
Proof.
  induction a as [|x a IH]; [congruence|]. intros _ Nb. destruct a as [|y a].
  - cbn [app]. destruct b; [congruence|reflexivity].
  - cbn [app]. rewrite !join_cons. cbn [app] in IH. rewrite IH by (discriminate || exact Nb). now rewrite !sapp_assoc.
Qed.
