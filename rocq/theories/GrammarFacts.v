From Coq Require Import Lia ZArith.
From Verif Require Import Base BaseFacts Utf8 Utf8Facts Json JsonFacts JsonText JsonTextFacts Spec SpecJsonText.

(* ------------------------------------------------------------ UTF-8 *)
Lemma start_spec c p : utf8_start c = Some p ->
  (byte c < 128 /\ p = []
  \/ 194 <= byte c <= 223 /\ p = [(128, 191)]
  \/ byte c = 224 /\ p = [(160, 191); (128, 191)]
  \/ byte c = 237 /\ p = [(128, 159); (128, 191)]
  \/ (225 <= byte c <= 236 \/ 238 <= byte c <= 239) /\ p = [(128, 191); (128, 191)]
  \/ byte c = 240 /\ p = [(144, 191); (128, 191); (128, 191)]
  \/ 241 <= byte c <= 243 /\ p = [(128, 191); (128, 191); (128, 191)]
  \/ byte c = 244 /\ p = [(128, 143); (128, 191); (128, 191)])%N.
Proof.
  unfold utf8_start, in_range.
  destruct (N.ltb_spec (byte c) 128); [intros [= <-]; tauto|].
  destruct (N.leb_spec 194 (byte c)), (N.leb_spec (byte c) 223); cbn [andb]; try (intros [= <-]; intuition lia);
  destruct (N.eqb_spec (byte c) 224); try (intros [= <-]; intuition lia);
  destruct (N.eqb_spec (byte c) 237); try (intros [= <-]; intuition lia);
  destruct (N.leb_spec 225 (byte c)), (N.leb_spec (byte c) 239); cbn [andb]; try (intros [= <-]; intuition lia);
  destruct (N.eqb_spec (byte c) 240); try (intros [= <-]; intuition lia);
  destruct (N.leb_spec 241 (byte c)), (N.leb_spec (byte c) 243); cbn [andb]; try (intros [= <-]; intuition lia);
  destruct (N.eqb_spec (byte c) 244); try (intros [= <-]; intuition lia); discriminate.
Qed.
Ltac cmp := repeat match goal with
  | |- context [N.ltb ?a ?b] => destruct (N.ltb_spec a b); [try lia|try lia]
  | |- context [N.leb ?a ?b] => destruct (N.leb_spec a b); [try lia|try lia]
  | |- context [N.eqb ?a ?b] => destruct (N.eqb_spec a b); [try lia|try lia]
  end; cbn [andb]; try reflexivity; try lia.
Lemma start_1 c : (byte c < 128)%N -> utf8_start c = Some [].
Proof. intros H. unfold utf8_start. cmp. Qed.
Lemma start_2 c : (194 <= byte c <= 223)%N -> utf8_start c = Some [(128, 191)]%N.
Proof. intros H. unfold utf8_start, in_range. cmp. Qed.
Lemma start_3 c : (224 <= byte c <= 239)%N ->
  utf8_start c = Some [(if (byte c =? 224)%N then 160 else 128, if (byte c =? 237)%N then 159 else 191); (128, 191)]%N.
Proof. intros H. unfold utf8_start, in_range. cmp. Qed.
Lemma start_4 c : (240 <= byte c <= 244)%N ->
  utf8_start c = Some [(if (byte c =? 240)%N then 144 else 128, if (byte c =? 244)%N then 143 else 191); (128, 191); (128, 191)]%N.
Proof. intros H. unfold utf8_start, in_range. cmp. Qed.

Lemma go_byte c r lo hi p : utf8_go ((lo, hi) :: p) (String c r) = true <-> (lo <= byte c <= hi)%N /\ utf8_go p r = true.
Proof.
  cbn [utf8_go]. unfold in_range. rewrite !andb_true_iff, !N.leb_le. reflexivity.
Qed.
Lemma go_more s lo hi p : utf8_go ((lo, hi) :: p) s = true -> exists c r, s = String c r /\ (lo <= byte c <= hi)%N /\ utf8_go p r = true.
Proof. destruct s as [|c r]; [discriminate|]. intros H. apply go_byte in H. eauto. Qed.
Lemma valid_go c r p : utf8_start c = Some p -> utf8_valid (String c r) = utf8_go p r.
Proof. intros H. unfold utf8_valid. cbn [utf8_go]. now rewrite H. Qed.

Lemma cons_eq {A} (x y : A) l m : x :: l = y :: m -> x = y /\ l = m.
Proof. intros [= -> ->]. auto. Qed.
Lemma encodes_valid n s r : encodes n s -> utf8_valid (s +:+ r) = utf8_valid r.
Proof.
  intros [Sc E]. apply Bool.eq_iff_eq_true. remember (map byte (chars s)) as bs eqn:Eb. revert Sc Eb.
  destruct E as [n H|n a b H E Hb|n a b c H E Hb Hc|n a b c d H E Hb Hc Hd]; intros Sc Eb;
    repeat (destruct s as [|? s]; [discriminate Eb|cbn [map chars list_ascii_of_string] in Eb; try discriminate Eb; apply cons_eq in Eb as [? Eb]]); (destruct s; [|discriminate Eb]);
    cbn [String.append].
  - match goal with |- context [utf8_valid (String ?x ?y)] => rewrite (valid_go x y _ (start_1 x ltac:(lia))) end; idtac. reflexivity.
  - match goal with |- context [utf8_valid (String ?x ?y)] => rewrite (valid_go x y _ (start_2 x ltac:(lia))) end; rewrite go_byte. intuition lia.
  - unfold scalar in Sc. match goal with |- context [utf8_valid (String ?x ?y)] => rewrite (valid_go x y _ (start_3 x ltac:(lia))) end; rewrite !go_byte. split; [tauto|]. intros V. split; [|split; [lia|exact V]].
    destruct (N.eqb_spec (byte a0) 224), (N.eqb_spec (byte a0) 237); lia.
  - unfold scalar in Sc. match goal with |- context [utf8_valid (String ?x ?y)] => rewrite (valid_go x y _ (start_4 x ltac:(lia))) end; rewrite !go_byte. split; [tauto|]. intros V. split; [|split; [lia|split; [lia|exact V]]].
    destruct (N.eqb_spec (byte a0) 240), (N.eqb_spec (byte a0) 244); lia.
Qed.
Lemma valid_encodes c r : utf8_valid (String c r) = true -> exists n s q, String c r = s +:+ q /\ s <> "" /\ encodes n s /\ utf8_valid q = true.
Proof.
  intros V. destruct (utf8_start c) as [p|] eqn:E; [|unfold utf8_valid in V; cbn [utf8_go] in V; rewrite E in V; discriminate].
  rewrite (valid_go _ _ _ E) in V. apply start_spec in E.
  assert (Q1 : forall n, (byte c < 128)%N -> utf8_go [] r = true -> n = byte c ->
     exists n s q, String c r = s +:+ q /\ s <> "" /\ encodes n s /\ utf8_valid q = true).
  { intros n H G ->. exists (byte c), (String c ""), r. split; [reflexivity|]. split; [discriminate|]. split; [|exact G]. split; [unfold scalar; lia|]. cbn. now constructor. }
  destruct E as [(H & ->)|[(H & ->)|E]].
  - eapply Q1; eauto.
  - apply go_more in V as (c1 & q & -> & H1 & V). exists ((byte c - 192) * 64 + (byte c1 - 128))%N, (String c (String c1 "")), q.
    split; [reflexivity|]. split; [discriminate|]. split; [|exact V]. split; [unfold scalar; lia|]. cbn [chars list_ascii_of_string map].
    replace [byte c; byte c1] with [192 + (byte c - 192); 128 + (byte c1 - 128)]%N by (f_equal; [lia|f_equal; lia]).
    econstructor; [lia|reflexivity|lia].
  - assert (Q3 : forall lo hi, (128 <= lo)%N -> (hi <= 191)%N -> (224 <= byte c <= 239)%N -> (byte c = 224 -> 160 <= lo)%N -> (byte c = 237 -> hi <= 159)%N ->
       utf8_go [(lo, hi); (128, 191)]%N r = true -> exists n s q, String c r = s +:+ q /\ s <> "" /\ encodes n s /\ utf8_valid q = true).
    { intros lo hi L Hh H A B G. apply go_more in G as (c1 & q1 & -> & H1 & G). apply go_more in G as (c2 & q & -> & H2 & G).
      exists (((byte c - 224) * 64 + (byte c1 - 128)) * 64 + (byte c2 - 128))%N, (String c (String c1 (String c2 ""))), q.
      split; [reflexivity|]. split; [discriminate|]. split; [|exact G]. split; [unfold scalar; lia|]. cbn [chars list_ascii_of_string map].
      replace [byte c; byte c1; byte c2] with [224 + (byte c - 224); 128 + (byte c1 - 128); 128 + (byte c2 - 128)]%N by (repeat f_equal; lia).
      econstructor; [lia|reflexivity|lia|lia]. }
    assert (Q4 : forall lo hi, (128 <= lo)%N -> (hi <= 191)%N -> (240 <= byte c <= 244)%N -> (byte c = 240 -> 144 <= lo)%N -> (byte c = 244 -> hi <= 143)%N ->
       utf8_go [(lo, hi); (128, 191); (128, 191)]%N r = true -> exists n s q, String c r = s +:+ q /\ s <> "" /\ encodes n s /\ utf8_valid q = true).
    { intros lo hi L Hh H A B G. apply go_more in G as (c1 & q1 & -> & H1 & G). apply go_more in G as (c2 & q2 & -> & H2 & G). apply go_more in G as (c3 & q & -> & H3 & G).
      exists ((((byte c - 240) * 64 + (byte c1 - 128)) * 64 + (byte c2 - 128)) * 64 + (byte c3 - 128))%N, (String c (String c1 (String c2 (String c3 "")))), q.
      split; [reflexivity|]. split; [discriminate|]. split; [|exact G]. split; [unfold scalar; lia|]. cbn [chars list_ascii_of_string map].
      replace [byte c; byte c1; byte c2; byte c3] with [240 + (byte c - 240); 128 + (byte c1 - 128); 128 + (byte c2 - 128); 128 + (byte c3 - 128)]%N by (repeat f_equal; lia).
      econstructor; [lia|reflexivity|lia|lia|lia]. }
    destruct E as [(H & ->)|[(H & ->)|[(H & ->)|[(H & ->)|[(H & ->)|(H & ->)]]]]];
      first [eapply Q3; [| | | | |exact V]; lia|eapply Q4; [| | | | |exact V]; lia].
Qed.
Lemma valid_utf8 : forall k s, String.length s <= k -> utf8_valid s = true -> exists l, utf8 s l.
Proof.
  induction k as [|k IH]; intros [|c r] L V; try (exists []; constructor); cbn in L; [lia|].
  apply valid_encodes in V as (n & s & q & E & Ne & En & V).
  assert (Lq : String.length q <= k).
  { assert (X : String.length (String c r) = String.length (s +:+ q)) by now rewrite E. rewrite slen_app in X. destruct s; [now destruct Ne|]. cbn in X. lia. }
  destruct (IH q Lq V) as (l & U). exists (n :: l). rewrite E. now constructor.
Qed.
Lemma utf8_is_valid s l : utf8 s l -> utf8_valid s = true.
Proof. intros H. induction H as [|n s r l E H IH]; [reflexivity|]. now rewrite (encodes_valid n). Qed.
Lemma utf8_iff s : utf8_valid s = true <-> exists l, utf8 s l.
Proof. split; [apply (valid_utf8 (String.length s)); lia|]. intros (l & H). now apply utf8_is_valid in H. Qed.
Lemma encoded_unique n l l' : encoded n l -> encoded n l' -> l = l'.
Proof.
  intros H H'. destruct H as [n H|n a b H E Hb|n a b c H E Hb Hc|n a b c d H E Hb Hc Hd];
    inversion H' as [m L|m a' b' L E' Hb'|m a' b' c' L E' Hb' Hc'|m a' b' c' d' L E' Hb' Hc' Hd']; clear H'; try lia; subst m.
  - reflexivity.
  - assert (a = a' /\ b = b') as [-> ->] by lia. reflexivity.
  - assert (a = a' /\ b = b' /\ c = c') as (-> & -> & ->) by lia. reflexivity.
  - assert (a = a' /\ b = b' /\ c = c' /\ d = d') as (-> & -> & -> & ->) by lia. reflexivity.
Qed.
Lemma bytes_inj : forall s s', map byte (chars s) = map byte (chars s') -> s = s'.
Proof.
  induction s as [|c s IH]; intros [|c' s'] H; cbn [chars list_ascii_of_string map] in H; try discriminate; [reflexivity|].
  apply cons_eq in H as [Hc H]. f_equal; [|now apply IH]. now rewrite <- (chr_byte c), <- (chr_byte c'), Hc.
Qed.
Lemma encodes_unique n s s' : encodes n s -> encodes n s' -> s = s'.
Proof. intros [_ H] [_ H']. apply bytes_inj. eapply encoded_unique; eassumption. Qed.
Lemma div64 n : exists q r, (n / 64 = q /\ n mod 64 = r /\ n = q * 64 + r /\ r < 64)%N.
Proof. exists (n / 64)%N, (n mod 64)%N. pose proof (N.div_mod n 64 ltac:(lia)). pose proof (N.mod_lt n 64 ltac:(lia)). repeat split; lia. Qed.
Lemma encodes_encode n : scalar n -> encodes n (utf8_encode n).
Proof.
  intros Sc. split; [exact Sc|]. unfold scalar in Sc. unfold utf8_encode.
  destruct (div64 n) as (q & r & Eq & Er & E & L). destruct (div64 q) as (q1 & r1 & Eq1 & Er1 & E1 & L1). destruct (div64 q1) as (q2 & r2 & Eq2 & Er2 & E2 & L2).
  assert (D2 : (n / 4096 = q1)%N) by (rewrite <- Eq1, <- Eq, N.div_div by lia; reflexivity).
  assert (D3 : (n / 262144 = q2)%N) by (rewrite <- Eq2, <- D2, N.div_div by lia; reflexivity).
  destruct (N.ltb_spec n 128); [|destruct (N.ltb_spec n 2048); [|destruct (N.ltb_spec n 65536)]]; cbn [s1 chars list_ascii_of_string map].
  - rewrite byte_chr by lia. now constructor.
  - rewrite Eq, Er, !byte_chr by lia. eapply enc2; [lia|exact E|exact L].
  - rewrite D2, Eq, Er1, Er, !byte_chr by lia. eapply enc3; [lia|lia|lia|lia].
  - rewrite D3, D2, Eq, Er2, Er1, Er, !byte_chr by lia. eapply enc4; [lia|lia|lia|lia|lia].
Qed.

(* ------------------------------------------------------------ whitespace *)
Lemma is_ws_iff c : is_ws c = true <-> In (byte c) [32; 9; 10; 13]%N.
Proof.
  unfold is_ws. rewrite !orb_true_iff, !N.eqb_eq. cbn [In]. intuition lia.
Qed.
Lemma skip_blank w s : blank w -> skip_ws (w +:+ s) = skip_ws s.
Proof.
  unfold blank. induction w as [|c w IH]; [reflexivity|]. cbn [chars list_ascii_of_string]. intros H. inversion H as [|? ? Hc Hw]; subst.
  cbn [String.append skip_ws]. apply is_ws_iff in Hc. rewrite Hc. now apply IH.
Qed.
Lemma skip_split s : exists w, blank w /\ s = w +:+ skip_ws s /\ (forall c r, skip_ws s = String c r -> is_ws c = false).
Proof.
  induction s as [|c s (w & B & E & N)]; [exists ""; split; [constructor|]; split; [reflexivity|discriminate]|]. cbn [skip_ws]. destruct (is_ws c) eqn:Ec.
  - exists (String c w). split; [constructor; [now apply is_ws_iff|exact B]|]. split; [cbn; now rewrite <- E|exact N].
  - exists "". split; [constructor|]. split; [reflexivity|]. now intros c' r' [= <- <-].
Qed.

(* ------------------------------------------------------------ numbers *)
Lemma is_digit_iff c : is_digit c = true <-> (48 <= byte c <= 57)%N.
Proof. unfold is_digit, in_range. rewrite andb_true_iff, !N.leb_le. reflexivity. Qed.
Lemma digits_iff s : str_all is_digit s = true <-> digits s.
Proof.
  unfold digits. induction s as [|c s IH]; cbn [str_all chars list_ascii_of_string]; [split; [constructor|reflexivity]|].
  rewrite andb_true_iff, is_digit_iff, IH. split; [intros [A B]; now constructor|intros H; inversion H; auto].
Qed.
Lemma nonempty_iff s : nonempty_digits s = true <-> digits s /\ s <> "".
Proof.
  destruct s as [|c s]; [split; [discriminate|intros [_ []]; reflexivity]|]. unfold nonempty_digits. rewrite digits_iff. split; [intros H; split; [exact H|discriminate]|now intros [H _]].
Qed.
Lemma digits_val_is s : forall n, digits_val n s = fold_left (fun n c => 10 * n + (byte c - 48))%N (chars s) n.
Proof. induction s as [|c s IH]; intros n; [reflexivity|]. cbn [digits_val chars list_ascii_of_string fold_left]. apply IH. Qed.
Lemma int_part_iff s : int_part_ok s = true <-> whole s.
Proof.
  unfold int_part_ok, whole. destruct s as [|c [|d s]].
  - split; [discriminate|]. intros [H|(c & r & H & _)]; discriminate.
  - rewrite andb_true_r, nonempty_iff. split.
    + intros [H _]. inversion H as [|? ? Hc _]; subst. destruct (N.eq_dec (byte c) 48) as [E|E].
      * left. f_equal. apply byte_inj. exact E.
      * right. exists c, "". split; [reflexivity|]. split; [lia|constructor].
    + intros [[= ->]|(c' & r & [= <- <-] & H & _)]; (split; [|discriminate]); (constructor; [|constructor]); [unfold byte; cbn; lia|lia].
  - rewrite andb_true_iff, nonempty_iff, negb_true_iff. split.
    + intros [[H _] Hn]. inversion H as [|? ? Hc Hr]; subst. right. exists c, (String d s). split; [reflexivity|]. split; [|exact Hr].
      apply Ascii.eqb_neq in Hn. assert (byte c <> 48%N); [|lia]. intros E. apply Hn, byte_inj. exact E.
    + intros [[=]|(c' & r & [= <- <-] & H & Hr)]. split; [split; [constructor; [lia|exact Hr]|discriminate]|].
      apply Ascii.eqb_neq. intros ->. unfold byte in H. cbn in H. lia.
Qed.
Lemma exp_iff s : exp_ok s = true <-> exponent s.
Proof.
  unfold exponent. destruct s as [|c r]; [split; [now left|reflexivity]|]. cbn [exp_ok]. rewrite andb_true_iff, orb_true_iff, !Ascii.eqb_eq. split.
  - intros [Hc H]. right. destruct r as [|d r']; [discriminate|].
    destruct (Ascii.eqb_spec d "+") as [->|Np]; [|destruct (Ascii.eqb_spec d "-") as [->|Nm]]; cbn [orb] in H; apply nonempty_iff in H as [Hd Hn].
    + exists (String c ""), "+", r'. split; [reflexivity|]. split; [destruct Hc as [->| ->]; auto|]. auto.
    + exists (String c ""), "-", r'. split; [reflexivity|]. split; [destruct Hc as [->| ->]; auto|]. auto.
    + exists (String c ""), "", (String d r'). split; [reflexivity|]. split; [destruct Hc as [->| ->]; auto|]. auto.
  - intros [[=]|(e & sg & r0 & E & He & Hs & Hd & Hn)]. destruct He as [->| ->]; injection E as -> ->; (split; [auto|]);
      (destruct Hs as [->|[->| ->]]; cbn [String.append]; [|now apply nonempty_iff|now apply nonempty_iff]);
      (destruct r0 as [|d r1]; [now destruct Hn|]); inversion Hd as [|? ? Hc _]; subst;
      (destruct (Ascii.eqb_spec d "+") as [->|_]; [unfold byte in Hc; cbn in Hc; lia|]);
      (destruct (Ascii.eqb_spec d "-") as [->|_]; [unfold byte in Hc; cbn in Hc; lia|]); now apply nonempty_iff.
Qed.
Lemma take_digits_of a b : digits a -> (forall c r, b = String c r -> is_digit c = false) -> take_digits (a +:+ b) = (a, b).
Proof.
  intros D N. induction a as [|c a IH].
  - cbn. destruct b as [|c r]; [reflexivity|]. cbn. now rewrite (N c r eq_refl).
  - inversion D as [|? ? Hc Ha]; subst. cbn [String.append take_digits]. apply is_digit_iff in Hc. rewrite Hc, (IH Ha). reflexivity.
Qed.
Lemma take_digits_stop s a b : take_digits s = (a, b) -> forall c r, b = String c r -> is_digit c = false.
Proof.
  revert a b. induction s as [|c s IH]; intros a b; cbn; [intros [= <- <-]; discriminate|]. destruct (is_digit c) eqn:E.
  - destruct (take_digits s) as [x y]. intros [= <- <-]. now apply (IH x y).
  - intros [= <- <-] d r [= <- <-]. exact E.
Qed.
Lemma exp_stop e c r : exponent e -> e = String c r -> is_digit c = false /\ c <> "."%char.
Proof.
  intros [->|(x & sg & d & -> & [->| ->] & _)] E; [discriminate| |]; injection E as <- <-; (split; [reflexivity|discriminate]).
Qed.
Lemma frac_exp_iff s : frac_exp_ok s = true <-> exists f e, s = f +:+ e /\ fraction f /\ exponent e.
Proof.
  destruct s as [|c r].
  - split; [intros _; exists "", ""; split; [reflexivity|]; split; now left|reflexivity].
  - cbn [frac_exp_ok]. destruct (Ascii.eqb_spec c ".") as [->|Hc].
    + destruct (take_digits r) as [d r'] eqn:Et. rewrite andb_true_iff, nonempty_iff, exp_iff. split.
      * intros [[Hd Hn] He]. apply take_digits_spec in Et as [-> _]. exists ("." +:+ d), r'. split; [reflexivity|]. split; [right; eauto|exact He].
      * intros (f & e & E & [->|(d' & -> & Hd & Hn)] & He).
        -- cbn in E. symmetry in E. destruct (exp_stop _ _ _ He E) as [_ X]. now destruct X.
        -- injection E as E. rewrite E, (take_digits_of d' e Hd) in Et; [injection Et as <- <-; auto|].
           intros c0 r0 E0. now destruct (exp_stop _ _ _ He E0).
    + rewrite exp_iff. split.
      * intros He. exists "", (String c r). split; [reflexivity|]. split; [now left|exact He].
      * intros (f & e & E & [->|(d' & -> & Hd & Hn)] & He); [cbn in E; now rewrite E|]. injection E as E _. now destruct Hc.
Qed.
Lemma digits_val_ge s : forall a, (a <= digits_val a s)%N.
Proof. induction s as [|c s IH]; intros a; cbn [digits_val]; [lia|]. specialize (IH (10 * a + (byte c - 48))%N). lia. Qed.
Lemma whole_digits s : whole s -> digits s /\ s <> "".
Proof. intros H. apply int_part_iff in H. unfold int_part_ok in H. apply andb_true_iff in H as [H _]. now apply nonempty_iff. Qed.
Lemma whole_zero s : whole s -> digits_val 0 s = 0%N -> s = "0".
Proof.
  intros [->|(c & r & -> & H & _)] E; [reflexivity|]. cbn [digits_val] in E. pose proof (digits_val_ge r (10 * 0 + (byte c - 48))%N). lia.
Qed.
Lemma token_split sg w fe : sign sg -> whole w -> (forall c r, fe = String c r -> is_digit c = false) ->
  num_of_token (sg +:+ w +:+ fe) =
  (if frac_exp_ok fe then
    match fe with
    | EmptyString =>
        let n := digits_val 0 w in
        let z := if String.eqb sg "-" then (- Z.of_N n)%Z else Z.of_N n in
        if (String.eqb sg "-" && (n =? 0)%N) || negb (int_ok z) then Some (JFloat (sg +:+ w +:+ fe)) else Some (JInt z)
    | _ => Some (JFloat (sg +:+ w +:+ fe))
    end else None).
Proof.
  intros Sg W N. pose proof (whole_digits w W) as [D Ne]. unfold num_of_token. destruct Sg as [->| ->].
  - change (String.eqb "" "-") with false. cbn [String.append]. destruct w as [|c w']; [now destruct Ne|]. cbn [String.append].
    inversion D as [|? ? Hc _]; subst. destruct (Ascii.eqb_spec c "-") as [->|_]; [unfold byte in Hc; cbn in Hc; lia|].
    change (String c (w' +:+ fe)) with (String c w' +:+ fe). rewrite (take_digits_of _ fe D N). apply int_part_iff in W. rewrite W. reflexivity.
  - change (String.eqb "-" "-") with true. cbn [String.append]. change (Ascii.eqb "-" "-") with true. cbv iota.
    rewrite (take_digits_of _ fe D N). apply int_part_iff in W. rewrite W. reflexivity.
Qed.
Lemma token_shape t v : num_of_token t = Some v -> exists sg w fe, t = sg +:+ w +:+ fe /\ sign sg /\ whole w /\ frac_exp_ok fe = true
  /\ (forall c r, fe = String c r -> is_digit c = false).
Proof.
  unfold num_of_token. destruct t as [|c r]; [discriminate|]. destruct (Ascii.eqb_spec c "-") as [->|Hn].
  - destruct (take_digits r) as [ip fe] eqn:Et. destruct (int_part_ok ip && frac_exp_ok fe) eqn:E; [|discriminate]. intros _. apply andb_true_iff in E as [Hi Hf].
    exists "-", ip, fe. pose proof (take_digits_stop _ _ _ Et). apply take_digits_spec in Et as [-> _]. split; [reflexivity|]. split; [now right|]. split; [now apply int_part_iff|auto].
  - destruct (take_digits (String c r)) as [ip fe] eqn:Et. destruct (int_part_ok ip && frac_exp_ok fe) eqn:E; [|discriminate]. intros _. apply andb_true_iff in E as [Hi Hf].
    exists "", ip, fe. pose proof (take_digits_stop _ _ _ Et). apply take_digits_spec in Et as [-> _]. split; [reflexivity|]. split; [now left|]. split; [now apply int_part_iff|auto].
Qed.
Lemma int_ok_iff z : int_ok z = true <-> (- 2 ^ 63 <= z < 2 ^ 64)%Z.
Proof. unfold int_ok, i64_min, u64_max. rewrite andb_true_iff, !Z.leb_le. lia. Qed.
Lemma signed_is sg w z : sign sg -> signed sg w z <-> z = (if String.eqb sg "-" then (- Z.of_N (digits_val 0 w))%Z else Z.of_N (digits_val 0 w)).
Proof.
  unfold signed, decimal. rewrite <- digits_val_is. intros [->| ->]; cbn [String.eqb Ascii.eqb Bool.eqb]; split.
  - intros [[_ H]|[[=] _]]. exact H.
  - intros H. left. auto.
  - intros [[[=] _]|[_ H]]. exact H.
  - intros H. right. auto.
Qed.
Lemma number_iff t v : num_of_token t = Some v <-> number t v.
Proof.
  split.
  - intros H. destruct (token_shape t v H) as (sg & w & fe & -> & Sg & W & F & N). rewrite (token_split sg w fe Sg W N), F in H.
    destruct fe as [|c r].
    + cbv zeta in H. rewrite sapp_nil_r in *. set (z := if String.eqb sg "-" then (- Z.of_N (digits_val 0 w))%Z else Z.of_N (digits_val 0 w)) in *.
      assert (Sz : signed sg w z) by now apply signed_is.
      destruct (String.eqb sg "-" && (digits_val 0 w =? 0)%N) eqn:E0.
      * injection H as <-. apply andb_true_iff in E0 as [E1 E2]. apply String.eqb_eq in E1. apply N.eqb_eq in E2. subst sg. rewrite (whole_zero w W E2). constructor.
      * cbn [orb] in H. destruct (int_ok z) eqn:Ez; cbn [negb] in H; injection H as <-.
        -- apply num_int; auto; [now apply int_ok_iff|]. intros E. destruct Sg as [->| ->]; cbn [String.append] in E.
           ++ subst w. destruct W as [[=]|(c & r & [= <- _] & Hc & _)]. unfold byte in Hc. cbn in Hc. lia.
           ++ injection E as ->. discriminate.
        -- apply (num_big sg w z); auto. destruct (Z.lt_ge_cases z (- 2 ^ 63)); [now left|right]. destruct (Z.lt_ge_cases z (2 ^ 64)); [|assumption].
           assert (int_ok z = true) by now apply int_ok_iff. congruence.
    + injection H as <-. apply frac_exp_iff in F as (f & e & E & Hf & He). rewrite E. apply num_float; auto. rewrite <- E. discriminate.
  - intros H. destruct H as [sg w z Sg W Sz R Nz|sg w z Sg W Sz R| |sg w f e Sg W F X Ne].
    + rewrite <- (sapp_nil_r (sg +:+ w)), sapp_assoc, token_split by (auto; discriminate). cbn [frac_exp_ok]. cbv zeta. apply signed_is in Sz; [|exact Sg]. rewrite <- Sz.
      apply int_ok_iff in R. rewrite R. cbn [negb]. rewrite orb_false_r. destruct (String.eqb_spec sg "-") as [->|]; cbn [andb]; [|reflexivity].
      destruct (N.eqb_spec (digits_val 0 w) 0) as [E|]; [|reflexivity]. now rewrite (whole_zero w W E) in Nz.
    + rewrite <- (sapp_nil_r (sg +:+ w)), sapp_assoc, token_split by (auto; discriminate). cbn [frac_exp_ok]. cbv zeta. apply signed_is in Sz; [|exact Sg]. rewrite <- Sz.
      destruct (int_ok z) eqn:Ez; [apply int_ok_iff in Ez; lia|]. cbn [negb]. now rewrite orb_true_r.
    + reflexivity.
    + rewrite token_split; auto.
      * assert (Hf : frac_exp_ok (f +:+ e) = true) by (apply frac_exp_iff; eauto). rewrite Hf. destruct (f +:+ e); [now destruct Ne|reflexivity].
      * intros c r E. destruct F as [->|(d & -> & _)]; [now destruct (exp_stop _ _ _ X E)|]. now injection E as <- _.
Qed.

(* ------------------------------------------------------------ strings *)
Lemma hex_val_iff c d : hex_val c = Some d <-> hex_digit c d.
Proof.
  unfold hex_val, hex_digit, in_range. destruct (N.leb_spec 48 (byte c)), (N.leb_spec (byte c) 57), (N.leb_spec 97 (byte c)), (N.leb_spec (byte c) 102),
    (N.leb_spec 65 (byte c)), (N.leb_spec (byte c) 70); cbn [andb]; split; intros X; first [injection X as <-; lia | discriminate X | f_equal; lia | exfalso; lia].
Qed.
Lemma hex4_iff a b c d n : hex4 a b c d = Some n <-> hex (String a (String b (String c (String d "")))) n.
Proof.
  unfold hex4. split.
  - destruct (hex_val a) as [w|] eqn:Ea; [|discriminate]. destruct (hex_val b) as [x|] eqn:Eb; [|discriminate]. destruct (hex_val c) as [y|] eqn:Ec; [|discriminate].
    destruct (hex_val d) as [z|] eqn:Ed; [|discriminate]. intros H. exists a, b, c, d, w, x, y, z. rewrite <- !hex_val_iff. repeat split; auto. apply (f_equal (fun o => match o with Some q => q | None => 0%N end)) in H. lia.
  - intros (a' & b' & c' & d' & w & x & y & z & [= <- <- <- <-] & Ha & Hb & Hc & Hd & ->). apply hex_val_iff in Ha, Hb, Hc, Hd. rewrite Ha, Hb, Hc, Hd. f_equal. lia.
Qed.
Lemma hex_bound s n : hex s n -> (n < 65536)%N.
Proof.
  intros (a & b & c & d & w & x & y & z & _ & Ha & Hb & Hc & Hd & ->). unfold hex_digit in *. assert (w < 16 /\ x < 16 /\ y < 16 /\ z < 16)%N by lia. lia.
Qed.
