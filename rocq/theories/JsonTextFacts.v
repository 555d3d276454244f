(** Lemmas about the JSON text format. *)
From Verif Require Import Base BaseFacts Utf8 Utf8Facts Json JsonFacts JsonText.
From Coq Require Import Lia ZifyBool ZifyN ZifyNat.
Ltac Zify.zify_post_hook ::= Z.div_mod_to_equations.

(* ------------------------------------------------------------ strings *)
Lemma parse_escape_char c t :
  parse_chars (escape_char c +:+ t) =
  match parse_chars t with Some (x, q) => Some (String c x, q) | None => None end.
Proof.
  destruct c as [b0 b1 b2 b3 b4 b5 b6 b7];
  destruct b0, b1, b2, b3, b4, b5, b6, b7; reflexivity.
Qed.

Lemma parse_escape s rest : parse_chars (escape s +:+ String dquote rest) = Some (s, rest).
Proof.
  induction s as [|c s IH].
  - reflexivity.
  - cbn [escape]. rewrite sapp_assoc, parse_escape_char, IH. reflexivity.
Qed.

Lemma parse_str_print s rest :
  utf8_valid s = true -> parse_str (escape s +:+ String dquote rest) = Some (s, rest).
Proof. intros H. unfold parse_str. rewrite parse_escape, H. reflexivity. Qed.

(* ------------------------------------------------------------ numbers *)
Lemma digits_val_snoc s c : forall a,
  digits_val a (s +:+ s1 c) = (10 * digits_val a s + (byte c - 48))%N.
Proof. induction s as [|d s IH]; intros a; cbn [String.append digits_val s1]; [reflexivity|apply IH]. Qed.

Lemma is_digit_chr n : (n < 10)%N -> is_digit (chr (48 + n)) = true.
Proof.
  intros H. unfold is_digit, in_range. rewrite byte_chr by lia.
  apply andb_true_iff; split; apply N.leb_le; lia.
Qed.

Lemma dec_go_spec f : forall n acc, (n < 2 ^ N.of_nat f)%N ->
  exists d, dec_go (S f) n acc = d +:+ acc /\ str_all is_digit d = true /\ d <> EmptyString /\
            digits_val 0 d = n /\
            (n = 0%N /\ d = "0" \/ exists c r, d = String c r /\ Ascii.eqb c "0" = false).
Proof.
  induction f as [|f IH]; intros n acc Hn.
  - cbn in Hn. assert (n = 0)%N by lia. subst n. exists "0". cbn. repeat split; auto. discriminate.
  - assert (Hd : is_digit (chr (48 + n mod 10)) = true) by (apply is_digit_chr; lia).
    change (dec_go (S (S f)) n acc) with
      (let acc' := String (chr (48 + n mod 10)) acc in
       if (n / 10 =? 0)%N then acc' else dec_go (S f) (n / 10) acc'). cbv zeta.
    destruct (N.eqb_spec (n / 10) 0) as [E|E].
    + exists (s1 (chr (48 + n mod 10))). split; [reflexivity|].
      split; [cbn [s1 str_all]; rewrite Hd; reflexivity|].
      split; [discriminate|].
      assert (n mod 10 = n)%N as -> by lia.
      split.
      * cbn [s1 digits_val]. rewrite byte_chr by lia. lia.
      * destruct (N.eq_dec n 0) as [->|Hz]; [left; split; reflexivity|].
        right. exists (chr (48 + n)), EmptyString. split; [reflexivity|].
        apply Ascii.eqb_neq. intros Hc. apply (f_equal byte) in Hc.
        rewrite byte_chr in Hc by lia. change (byte "0") with 48%N in Hc. lia.
    + destruct (IH (n / 10)%N (String (chr (48 + n mod 10)) acc)) as (d & H1 & H2 & H3 & H4 & H5).
      { rewrite Nat2N.inj_succ, N.pow_succ_r' in Hn. lia. }
      exists (d +:+ s1 (chr (48 + n mod 10))). split; [rewrite H1, sapp_assoc; reflexivity|].
      split; [rewrite str_all_app, H2; cbn [s1 str_all]; rewrite Hd; reflexivity|].
      split; [destruct d; discriminate|].
      split.
      * rewrite digits_val_snoc, H4, byte_chr by lia. lia.
      * right. destruct H5 as [[Hz _]|(c & r & -> & Hc)]; [contradiction|].
        exists c, (r +:+ s1 (chr (48 + n mod 10))). split; [reflexivity|exact Hc].
Qed.

Lemma N_size_bound n : (n < 2 ^ N.of_nat (N.size_nat n))%N.
Proof.
  destruct n as [|p]; [cbn; lia|]. cbn [N.size_nat].
  induction p as [p IH|p IH|]; cbn [Pos.size_nat]; [| |cbn; lia];
    rewrite Nat2N.inj_succ, N.pow_succ_r'; lia.
Qed.

Lemma dec_N_spec n :
  str_all is_digit (dec_N n) = true /\ dec_N n <> EmptyString /\ digits_val 0 (dec_N n) = n /\
  (n = 0%N /\ dec_N n = "0" \/ exists c r, dec_N n = String c r /\ Ascii.eqb c "0" = false).
Proof.
  destruct (dec_go_spec (N.size_nat n) n EmptyString (N_size_bound n)) as (d & H1 & H2 & H3 & H4 & H5).
  unfold dec_N. rewrite H1, sapp_nil_r. auto.
Qed.

Lemma dec_N_digits n : str_all is_digit (dec_N n) = true.
Proof. apply dec_N_spec. Qed.

Lemma dec_N_inj a b : dec_N a = dec_N b -> a = b.
Proof.
  intros H. destruct (dec_N_spec a) as (_ & _ & Ha & _). destruct (dec_N_spec b) as (_ & _ & Hb & _).
  congruence.
Qed.

Lemma take_digits_all s : str_all is_digit s = true -> take_digits s = (s, EmptyString).
Proof.
  induction s as [|c s IH]; cbn; [reflexivity|].
  rewrite andb_true_iff; intros [-> H]. rewrite (IH H). reflexivity.
Qed.

Lemma int_part_ok_dec n : int_part_ok (dec_N n) = true.
Proof.
  destruct (dec_N_spec n) as (H1 & H2 & H3 & H4). unfold int_part_ok, nonempty_digits.
  destruct (dec_N n) as [|c r] eqn:E; [contradiction|]. rewrite H1. cbn.
  destruct H4 as [[_ H4]|(c' & r' & H4 & Hc)].
  - inversion H4; reflexivity.
  - inversion H4; subst. destruct r'; [reflexivity|]. rewrite Hc; reflexivity.
Qed.

Lemma num_of_dec z : int_ok z = true -> num_of_token (dec_Z z) = Some (JInt z).
Proof.
  intros Hok. destruct z as [|p|p].
  - reflexivity.
  - unfold num_of_token, dec_Z.
    destruct (dec_N_spec (Npos p)) as (H1 & H2 & H3 & H4).
    assert ((match dec_N (N.pos p) with
             | String c r => if Ascii.eqb c "-" then (true, r) else (false, dec_N (N.pos p))
             | EmptyString => (false, dec_N (N.pos p))
             end) = (false, dec_N (N.pos p))) as ->.
    { destruct (dec_N (N.pos p)) as [|c r]; [reflexivity|].
      destruct (Ascii.eqb_spec c "-") as [->|]; [|reflexivity].
      cbn in H1; discriminate. }
    rewrite take_digits_all by exact H1. rewrite int_part_ok_dec. cbn [andb frac_exp_ok].
    rewrite H3. cbn [andb orb Z.of_N negb]. rewrite Hok. reflexivity.
  - unfold num_of_token, dec_Z.
    destruct (dec_N_spec (Npos p)) as (H1 & H2 & H3 & H4).
    change (Ascii.eqb "-" "-") with true. cbv iota beta.
    rewrite take_digits_all by exact H1. rewrite int_part_ok_dec. cbn [andb frac_exp_ok].
    rewrite H3. change (- Z.of_N (N.pos p))%Z with (Z.neg p).
    rewrite Hok. reflexivity.
Qed.

Definition delim (s : string) : bool :=
  match s with EmptyString => true | String c _ => negb (is_numchar c) end.

Lemma take_num_all t rest :
  str_all is_numchar t = true -> delim rest = true -> take_num (t +:+ rest) = (t, rest).
Proof.
  intros H Hd. induction t as [|c t IH].
  - cbn. destruct rest as [|c r]; [reflexivity|]. cbn in *.
    destruct (is_numchar c); [discriminate|reflexivity].
  - cbn in *. apply andb_true_iff in H as [Hc Ht]. rewrite Hc, (IH Ht). reflexivity.
Qed.

Lemma is_digit_numchar c : is_digit c = true -> is_numchar c = true.
Proof. intros H. unfold is_numchar. rewrite H. reflexivity. Qed.

Lemma take_digits_spec s a b :
  take_digits s = (a, b) -> s = a +:+ b /\ str_all is_digit a = true.
Proof.
  revert a b; induction s as [|c s IH]; intros a b; cbn.
  - intros H; inversion H; auto.
  - destruct (is_digit c) eqn:E.
    + destruct (take_digits s) as [x y]. intros H; inversion H; subst.
      destruct (IH x b eq_refl) as [-> Hx]. cbn. rewrite E. auto.
    + intros H; inversion H; auto.
Qed.

Lemma nonempty_digits_all s : nonempty_digits s = true -> str_all is_digit s = true.
Proof. destruct s; [discriminate|auto]. Qed.

Lemma digits_numchars s : str_all is_digit s = true -> str_all is_numchar s = true.
Proof. apply str_all_impl, is_digit_numchar. Qed.

Lemma exp_ok_numchars s : exp_ok s = true -> str_all is_numchar s = true.
Proof.
  destruct s as [|c r]; [reflexivity|]. cbn [exp_ok str_all].
  rewrite andb_true_iff; intros [Hc Hr]. apply andb_true_iff; split.
  - unfold is_numchar. apply orb_true_iff in Hc as [->| ->]; rewrite ?orb_true_r; reflexivity.
  - destruct r as [|d r']; [discriminate|].
    destruct (Ascii.eqb d "+" || Ascii.eqb d "-") eqn:E.
    + cbn [str_all]. apply andb_true_iff; split.
      * unfold is_numchar. apply orb_true_iff in E as [->| ->]; rewrite ?orb_true_r; reflexivity.
      * apply digits_numchars, nonempty_digits_all, Hr.
    + apply digits_numchars, nonempty_digits_all, Hr.
Qed.

Lemma frac_exp_numchars s : frac_exp_ok s = true -> str_all is_numchar s = true.
Proof.
  destruct s as [|c r]; [reflexivity|]. unfold frac_exp_ok.
  destruct (Ascii.eqb c ".") eqn:E.
  - destruct (take_digits r) as [d r'] eqn:Et. apply take_digits_spec in Et as [-> Hd].
    rewrite andb_true_iff; intros [_ He]. cbn [str_all]. apply andb_true_iff; split.
    + unfold is_numchar. rewrite E, ?orb_true_r. reflexivity.
    + rewrite str_all_app, (digits_numchars _ Hd), (exp_ok_numchars _ He). reflexivity.
  - apply exp_ok_numchars.
Qed.

Lemma num_token_chars t j :
  num_of_token t = Some j ->
  str_all is_numchar t = true /\
  exists c r, t = String c r /\ (is_digit c = true \/ c = "-"%char).
Proof.
  unfold num_of_token.
  destruct t as [|c r]; [cbn; discriminate|].
  destruct (Ascii.eqb_spec c "-") as [->|Hn].
  - destruct (take_digits r) as [ip fe] eqn:Et. apply take_digits_spec in Et as [-> Hd].
    destruct (int_part_ok ip && frac_exp_ok fe) eqn:E; [|discriminate]. intros _.
    apply andb_true_iff in E as [_ Hf]. split; [|eexists _, _; eauto].
    cbn [str_all]. rewrite str_all_app, (digits_numchars _ Hd), (frac_exp_numchars _ Hf). reflexivity.
  - destruct (take_digits (String c r)) as [ip fe] eqn:Et.
    apply take_digits_spec in Et as [Heq Hd]. rewrite Heq.
    destruct (int_part_ok ip && frac_exp_ok fe) eqn:E; [|discriminate]. intros _.
    apply andb_true_iff in E as [Hi Hf].
    rewrite str_all_app, (digits_numchars _ Hd), (frac_exp_numchars _ Hf). split; [reflexivity|].
    unfold int_part_ok in Hi. apply andb_true_iff in Hi as [Hi _].
    destruct ip as [|c' ip]; [discriminate|]. exists c', (ip +:+ fe). split; [reflexivity|].
    cbn in Hd. apply andb_true_iff in Hd as [Hd _]. auto.
Qed.

(* ------------------------------------------------------------ heads *)
Definition head_ok (c : ascii) : bool :=
  negb (is_ws c) && negb (Ascii.eqb c "]") && negb (Ascii.eqb c "}").

Definition num_head (c : ascii) : bool := is_digit c || Ascii.eqb c "-".

Lemma num_head_ok c : num_head c = true -> head_ok c = true.
Proof.
  unfold num_head. rewrite orb_true_iff. intros [H|H].
  - destruct c as [b0 b1 b2 b3 b4 b5 b6 b7];
    destruct b0, b1, b2, b3, b4, b5, b6, b7; vm_compute in H |- *; congruence.
  - apply Ascii.eqb_eq in H; subst; reflexivity.
Qed.

Lemma num_head_dispatch c : num_head c = true ->
  is_ws c = false /\ Ascii.eqb c dquote = false /\ Ascii.eqb c "[" = false /\ Ascii.eqb c "{" = false /\
  Ascii.eqb c "n" = false /\ Ascii.eqb c "t" = false /\ Ascii.eqb c "f" = false.
Proof.
  unfold num_head. rewrite orb_true_iff. intros [H|H].
  - destruct c as [b0 b1 b2 b3 b4 b5 b6 b7];
    destruct b0, b1, b2, b3, b4, b5, b6, b7; vm_compute in H |- *; try discriminate; repeat split.
  - apply Ascii.eqb_eq in H; subst; repeat split.
Qed.

Lemma num_text j t : num_of_token t = Some j ->
  exists c r, t = String c r /\ num_head c = true.
Proof.
  intros H. apply num_token_chars in H as [_ (c & r & -> & Hc)]. exists c, r; split; [reflexivity|].
  unfold num_head. destruct Hc as [-> | ->]; [reflexivity|]. apply orb_true_r.
Qed.

Lemma float_token l : jtext_ok (JFloat l) = true -> num_of_token l = Some (JFloat l).
Proof.
  cbn. destruct (num_of_token l) as [j|] eqn:E; [|discriminate].
  destruct j; try discriminate. intros _. revert E. unfold num_of_token.
  set (nb := match l with
             | String c r => if Ascii.eqb c "-" then (true, r) else (false, l)
             | EmptyString => (false, l)
             end).
  destruct nb as [neg body]. destruct (take_digits body) as [ip fe].
  destruct (int_part_ok ip && frac_exp_ok fe); [|discriminate].
  destruct fe; [|intros H; inversion H; reflexivity].
  match goal with |- context [if ?b then _ else _] => destruct b end; intros H; inversion H; reflexivity.
Qed.

Lemma jprint_head j : jtext_ok j = true ->
  exists c r, jprint j = String c r /\ head_ok c = true.
Proof.
  destruct j; intros H.
  - eexists _, _; split; reflexivity.
  - destruct b; eexists _, _; split; reflexivity.
  - pose proof (num_of_dec z H) as Hn. apply num_text in Hn as (c & r & Hc & Hh).
    exists c, r; split; [exact Hc|apply num_head_ok; exact Hh].
  - apply float_token in H. apply num_text in H as (c & r & Hc & Hh).
    exists c, r; split; [exact Hc|apply num_head_ok; exact Hh].
  - eexists _, _; split; reflexivity.
  - eexists _, _; split; reflexivity.
  - eexists _, _; split; reflexivity.
Qed.

Lemma head_ok_not_ws c r : head_ok c = true -> skip_ws (String c r) = String c r.
Proof. unfold head_ok; cbn. destruct (is_ws c); [discriminate|reflexivity]. Qed.

Lemma parse_num fuel d t j rest :
  num_of_token t = Some j -> delim rest = true -> fuel <> 0 ->
  parse_value fuel d (t +:+ rest) = Some (j, rest).
Proof.
  intros Ht Hd Hf. destruct fuel as [|f]; [contradiction|].
  pose proof (num_text _ _ Ht) as (c & r & -> & Hh).
  pose proof (num_token_chars _ _ Ht) as [Hch _].
  pose proof (num_head_dispatch c Hh) as (H0 & H1 & H2 & H3 & H4 & H5 & H6).
  cbn [String.append parse_value skip_ws]. rewrite H0, H1, H2, H3, H4, H5, H6.
  change (String c (r +:+ rest)) with (String c r +:+ rest).
  rewrite take_num_all by assumption. rewrite Ht. reflexivity.
Qed.

(* ------------------------------------------------------------ round trip *)
Fixpoint need (j : json) : nat :=
  match j with
  | JArr l => 1 + list_sum (map (fun x => 1 + need x) l)
  | JObj m => 1 + list_sum (map (fun kv => 1 + need (snd kv)) m)
  | _ => 1
  end.

Definition RT (j : json) : Prop := forall fuel d rest,
  need j <= fuel -> jdepth j < d -> delim rest = true ->
  parse_value fuel d (jprint j +:+ rest) = Some (j, rest).

Lemma max_fold_le l x : In x l -> x <= fold_right Nat.max 0 l.
Proof. induction l as [|y l IH]; cbn; [tauto|]. intros [->|H]; [lia|]. specialize (IH H); lia. Qed.

Definition member_text (kv : string * json) : string :=
  print_str (fst kv) +:+ String ":" (jprint (snd kv)).

Lemma elems_rt l : Forall (fun j => jtext_ok j = true) l -> Forall RT l -> l <> [] ->
  forall fuel d rest,
  list_sum (map (fun x => 1 + need x) l) <= fuel -> fold_right Nat.max 0 (map jdepth l) < d ->
  parse_elems fuel d (join "," (map jprint l) +:+ String "]" rest) = Some (l, rest).
Proof.
  induction l as [|x l IH]; intros Hok Hrt Hne fuel d rest Hf Hd; [contradiction|].
  inversion Hok; inversion Hrt; subst.
  change (list_sum (map (fun x => 1 + need x) (x :: l))) with
    ((1 + need x) + list_sum (map (fun x => 1 + need x) l)) in Hf.
  change (fold_right Nat.max 0 (map jdepth (x :: l))) with
    (Nat.max (jdepth x) (fold_right Nat.max 0 (map jdepth l))) in Hd.
  destruct fuel as [|f]; [lia|].
  destruct l as [|y l].
  - cbn [map join]. cbn [parse_elems].
    rewrite (H5 f d (String "]" rest)) by (try lia; reflexivity). reflexivity.
  - change (join "," (map jprint (x :: y :: l))) with (jprint x +:+ "," +:+ join "," (map jprint (y :: l))).
    rewrite !sapp_assoc. cbn [parse_elems].
    rewrite (H5 f d) by (try lia; reflexivity).
    cbn [String.append skip_ws]. change (is_ws ",") with false. cbv iota.
    change (Ascii.eqb "," "]") with false. change (Ascii.eqb "," ",") with true. cbv iota.
    rewrite IH; [reflexivity|assumption|assumption|discriminate| |]; lia.
Qed.

Lemma members_rt m : Forall (fun kv => utf8_valid (fst kv) = true /\ jtext_ok (snd kv) = true) m ->
  Forall (fun kv => RT (snd kv)) m -> m <> [] ->
  forall fuel d rest,
  list_sum (map (fun kv => 1 + need (snd kv)) m) <= fuel ->
  fold_right Nat.max 0 (map (fun kv => jdepth (snd kv)) m) < d ->
  parse_members fuel d (join "," (map member_text m) +:+ String "}" rest) = Some (m, rest).
Proof.
  induction m as [|[k x] m IH]; intros Hok Hrt Hne fuel d rest Hf Hd; [contradiction|].
  inversion Hok as [|? ? [Hk Hx] Hok']; inversion Hrt as [|? ? Hrx Hrt']; subst. cbn [fst snd] in *.
  change (list_sum (map (fun kv : string * json => 1 + need (snd kv)) ((k, x) :: m))) with
    ((1 + need x) + list_sum (map (fun kv : string * json => 1 + need (snd kv)) m)) in Hf.
  change (fold_right Nat.max 0 (map (fun kv : string * json => jdepth (snd kv)) ((k, x) :: m))) with
    (Nat.max (jdepth x) (fold_right Nat.max 0 (map (fun kv : string * json => jdepth (snd kv)) m))) in Hd.
  destruct fuel as [|f]; [lia|].
  assert (Hstep : forall tail, delim tail = true ->
    parse_members (S f) d (member_text (k, x) +:+ tail) =
    match skip_ws tail with
    | String c2 q =>
        if Ascii.eqb c2 "}" then Some ([(k, x)], q)
        else if Ascii.eqb c2 "," then
          match parse_members f d q with Some (l, q') => Some ((k, x) :: l, q') | None => None end
        else None
    | EmptyString => None
    end).
  { intros tail Htail. unfold member_text, print_str. cbn [fst snd].
    rewrite !sapp_assoc. cbn [String.append parse_members skip_ws].
    change (is_ws dquote) with false. cbv iota. change (Ascii.eqb dquote dquote) with true. cbv iota.
    rewrite sapp_assoc. cbn [s1 String.append].
    rewrite parse_str_print by exact Hk. cbn [skip_ws].
    change (is_ws ":") with false. cbv iota. change (Ascii.eqb ":" ":") with true. cbv iota.
    rewrite (Hrx f d tail) by (try lia; exact Htail). reflexivity. }
  destruct m as [|y m].
  - cbn [map join]. rewrite Hstep by reflexivity. reflexivity.
  - change (join "," (map member_text ((k, x) :: y :: m))) with
      (member_text (k, x) +:+ "," +:+ join "," (map member_text (y :: m))).
    rewrite !sapp_assoc. rewrite Hstep by reflexivity.
    cbn [String.append skip_ws]. change (is_ws ",") with false. cbv iota.
    change (Ascii.eqb "," "}") with false. change (Ascii.eqb "," ",") with true. cbv iota.
    rewrite IH; [reflexivity|assumption|assumption|discriminate| |]; lia.
Qed.

Lemma jprint_obj m : jprint (JObj m) = String "{" (join "," (map member_text m) +:+ "}").
Proof. reflexivity. Qed.

Lemma join_head l y ys : l = y :: ys -> forall c r, y = String c r ->
  exists r', join "," l = String c r'.
Proof. intros -> c r ->. destruct ys; cbn; eexists; reflexivity. Qed.

Lemma value_rt j : jtext_ok j = true -> RT j.
Proof.
  induction j using json_ind'; intros Hok fuel d rest Hf Hd Hr.
  - destruct fuel; [cbn in Hf; lia|]. reflexivity.
  - destruct fuel; [cbn in Hf; lia|]. destruct b; reflexivity.
  - cbn [jprint]. apply parse_num; [apply num_of_dec; exact Hok|exact Hr|cbn in Hf; lia].
  - cbn [jprint]. apply parse_num; [apply float_token; exact Hok|exact Hr|cbn in Hf; lia].
  - destruct fuel; [cbn in Hf; lia|]. cbn [jprint]. unfold print_str.
    cbn [String.append parse_value skip_ws]. change (is_ws dquote) with false. cbv iota.
    change (Ascii.eqb dquote dquote) with true. cbv iota. rewrite sapp_assoc. cbn [s1 String.append].
    rewrite parse_str_print by exact Hok. reflexivity.
  - assert (Hokl : Forall (fun j => jtext_ok j = true) l).
    { apply Forall_forall. apply forallb_forall. exact Hok. }
    assert (Hrt : Forall RT l).
    { rewrite Forall_forall in *. auto. }
    change (need (JArr l)) with (1 + list_sum (map (fun x => 1 + need x) l)) in Hf.
    change (jdepth (JArr l)) with (S (fold_right Nat.max 0 (map jdepth l))) in Hd.
    destruct fuel as [|f]; [lia|]. destruct d as [|[|d]]; [lia|lia|].
    cbn [jprint String.append parse_value skip_ws]. change (is_ws "[") with false. cbv iota.
    change (Ascii.eqb "[" dquote) with false. change (Ascii.eqb "[" "[") with true. cbv iota.
    destruct l as [|x l]; [reflexivity|].
    rewrite sapp_assoc. cbn [String.append].
    assert (Hh : exists c r, join "," (map jprint (x :: l)) = String c r /\ head_ok c = true).
    { inversion Hokl; subst. destruct (jprint_head x H2) as (c & r & E & Hc).
      destruct (join_head (map jprint (x :: l)) _ _ eq_refl c r E) as [r' Hr']. eauto. }
    destruct Hh as (c & r & E & Hc).
    pose proof (elems_rt (x :: l) Hokl Hrt ltac:(discriminate) f (S d) rest ltac:(lia) ltac:(lia)) as Hel.
    rewrite E in *. cbn [String.append] in *. rewrite head_ok_not_ws by exact Hc.
    assert (Ascii.eqb c "]" = false) as ->.
    { unfold head_ok in Hc. destruct (Ascii.eqb c "]"); [|reflexivity].
      rewrite andb_false_r in Hc; discriminate. }
    rewrite Hel. reflexivity.
  - assert (Hokl : Forall (fun kv : string * json => utf8_valid (fst kv) = true /\ jtext_ok (snd kv) = true) m).
    { apply Forall_forall. cbn in Hok. rewrite forallb_forall in Hok. intros kv Hin.
      apply andb_true_iff, Hok, Hin. }
    assert (Hrt : Forall (fun kv : string * json => RT (snd kv)) m).
    { rewrite Forall_forall in *. intros kv Hin. apply H; [exact Hin|]. apply Hokl; exact Hin. }
    change (need (JObj m)) with (1 + list_sum (map (fun kv : string * json => 1 + need (snd kv)) m)) in Hf.
    change (jdepth (JObj m)) with (S (fold_right Nat.max 0 (map (fun kv : string * json => jdepth (snd kv)) m))) in Hd.
    destruct fuel as [|f]; [lia|]. destruct d as [|[|d]]; [lia|lia|].
    rewrite jprint_obj. cbn [String.append parse_value skip_ws]. change (is_ws "{") with false. cbv iota.
    change (Ascii.eqb "{" dquote) with false. change (Ascii.eqb "{" "[") with false.
    change (Ascii.eqb "{" "{") with true. cbv iota.
    destruct m as [|[k x] m]; [reflexivity|].
    rewrite sapp_assoc. cbn [String.append].
    assert (Hh : exists r, join "," (map member_text ((k, x) :: m)) = String dquote r).
    { apply (join_head (map member_text ((k, x) :: m)) _ _ eq_refl dquote
               ((escape k +:+ s1 dquote) +:+ String ":" (jprint x))). reflexivity. }
    destruct Hh as (r & E).
    pose proof (members_rt ((k, x) :: m) Hokl Hrt ltac:(discriminate) f (S d) rest ltac:(lia) ltac:(lia)) as Hel.
    rewrite E in *. cbn [String.append] in *. rewrite (head_ok_not_ws dquote) by reflexivity.
    change (Ascii.eqb dquote "}") with false. cbv iota.
    rewrite Hel. reflexivity.
Qed.

(** The fuel of [parse_raw] suffices. *)
Lemma join_len l : String.length (join "," l) = list_sum (map String.length l) + (length l - 1).
Proof.
  induction l as [|x l IH]; [reflexivity|]. destruct l as [|y l].
  - cbn. lia.
  - change (join "," (x :: y :: l)) with (x +:+ "," +:+ join "," (y :: l)).
    rewrite !slen_app, IH. cbn [map list_sum fold_right length String.length]. cbn. lia.
Qed.

Lemma need_le j : jtext_ok j = true -> need j <= 2 * String.length (jprint j).
Proof.
  assert (Hh : forall j, jtext_ok j = true -> 1 <= String.length (jprint j)).
  { intros j' Hj. destruct (jprint_head j' Hj) as (c & r & -> & _). cbn; lia. }
  induction j using json_ind'; intros Hok.
  - cbn; lia.
  - destruct b; cbn; lia.
  - specialize (Hh _ Hok). cbn [need]; lia.
  - specialize (Hh _ Hok). cbn [need]; lia.
  - specialize (Hh _ Hok). cbn [need]; lia.
  - assert (Hokl : forall x, In x l -> jtext_ok x = true) by (apply forallb_forall; exact Hok).
    rewrite Forall_forall in H.
    cbn [jprint String.length]. rewrite slen_app, join_len. cbn [String.length].
    change (need (JArr l)) with (1 + list_sum (map (fun x => 1 + need x) l)).
    rewrite !map_length.
    assert (list_sum (map (fun x => 1 + need x) l) <=
            2 * list_sum (map String.length (map jprint l)) + length l).
    { clear Hok Hh. induction l as [|x l IH]; [cbn; lia|]. cbn [map list_sum fold_right length].
      change (fold_right Init.Nat.add 0 (map (fun x => 1 + need x) l)) with (list_sum (map (fun x => 1 + need x) l)).
      change (fold_right Init.Nat.add 0 (map String.length (map jprint l))) with (list_sum (map String.length (map jprint l))).
      pose proof (H x (or_introl eq_refl) (Hokl x (or_introl eq_refl))).
      assert (list_sum (map (fun x => 1 + need x) l) <=
            2 * list_sum (map String.length (map jprint l)) + length l).
      { apply IH; intros; [apply H; [right; assumption|assumption]|apply Hokl; right; assumption]. }
      lia. }
    lia.
  - assert (Hokl : forall kv, In kv m -> jtext_ok (snd kv) = true).
    { cbn in Hok. rewrite forallb_forall in Hok. intros kv Hin. apply Hok in Hin.
      apply andb_true_iff in Hin; tauto. }
    rewrite Forall_forall in H.
    rewrite jprint_obj. cbn [String.length]. rewrite slen_app, join_len. cbn [String.length].
    change (need (JObj m)) with (1 + list_sum (map (fun kv : string * json => 1 + need (snd kv)) m)).
    rewrite !map_length.
    assert (list_sum (map (fun kv : string * json => 1 + need (snd kv)) m) <=
            2 * list_sum (map String.length (map member_text m)) + length m).
    { clear Hok Hh. induction m as [|x m IH]; [cbn; lia|]. cbn [map list_sum fold_right length].
      change (fold_right Init.Nat.add 0 (map (fun kv : string * json => 1 + need (snd kv)) m)) with
        (list_sum (map (fun kv : string * json => 1 + need (snd kv)) m)).
      change (fold_right Init.Nat.add 0 (map String.length (map member_text m))) with
        (list_sum (map String.length (map member_text m))).
      pose proof (H x (or_introl eq_refl) (Hokl x (or_introl eq_refl))).
      assert (list_sum (map (fun kv : string * json => 1 + need (snd kv)) m) <=
            2 * list_sum (map String.length (map member_text m)) + length m).
      { apply IH; intros; [apply H; [right; assumption|assumption]|apply Hokl; right; assumption]. }
      assert (String.length (jprint (snd x)) <= String.length (member_text x)).
      { unfold member_text. rewrite slen_app. cbn [String.length]. lia. }
      lia. }
    lia.
Qed.

(** Text to raw value: works for any order of entries and any duplicates. *)
Lemma parse_raw_print j : jtext_ok j = true -> jdepth j <= 127 -> parse_raw (jprint j) = Some j.
Proof.
  intros Hok Hd. unfold parse_raw.
  pose proof (value_rt j Hok (2 * String.length (jprint j) + 2) 128 EmptyString) as H.
  rewrite sapp_nil_r in H. rewrite H; [reflexivity| |lia|reflexivity].
  pose proof (need_le j Hok). lia.
Qed.

Lemma json_text_rt j : jwf j = true -> jdepth j <= 127 -> json_of_text (jprint j) = Some j.
Proof.
  unfold jwf. rewrite andb_true_iff. intros [Ht Hs] Hd. unfold json_of_text.
  rewrite parse_raw_print by assumption. cbn. rewrite normalize_sorted by exact Hs. reflexivity.
Qed.

(* ------------------------------------------------------------ parsed values are well-formed *)
Lemma num_token_ok t j : num_of_token t = Some j -> jtext_ok j = true /\ jdepth j = 0.
Proof.
  intros H. pose proof H as H0. revert H. unfold num_of_token at 1.
  set (nb := match t with
             | String c r => if Ascii.eqb c "-" then (true, r) else (false, t)
             | EmptyString => (false, t)
             end).
  destruct nb as [neg body]. destruct (take_digits body) as [ip fe].
  destruct (int_part_ok ip && frac_exp_ok fe); [|discriminate].
  assert (Hfl : Some (JFloat t) = Some j -> jtext_ok j = true /\ jdepth j = 0).
  { intros H; inversion H; subst. cbn [jtext_ok]. rewrite H0. auto. }
  destruct fe; [|exact Hfl].
  destruct ((neg && (digits_val 0 ip =? 0)%N) ||
            negb (int_ok (if neg then (- Z.of_N (digits_val 0 ip))%Z else Z.of_N (digits_val 0 ip)))) eqn:E;
    [exact Hfl|].
  intros H; inversion H; subst. cbn. apply orb_false_iff in E as [_ E].
  apply negb_false_iff in E. auto.
Qed.

Definition vok (d : nat) (j : json) : Prop := jtext_ok j = true /\ jdepth j < d.

Lemma parse_str_ok s t q : parse_str s = Some (t, q) -> utf8_valid t = true.
Proof.
  unfold parse_str. destruct (parse_chars s) as [[t' q']|]; [|discriminate].
  destruct (utf8_valid t') eqn:E; [|discriminate]. intros H; inversion H; subst; exact E.
Qed.

Lemma arr_vok d l : Forall (vok (S d)) l -> vok (S (S d)) (JArr l).
Proof.
  intros H. split.
  - cbn. apply forallb_forall. rewrite Forall_forall in H. intros x Hx. apply H; exact Hx.
  - cbn [jdepth]. apply -> Nat.succ_lt_mono.
    induction H as [|x l [_ Hx] _ IH]; cbn [map fold_right]; lia.
Qed.

Lemma obj_vok d m :
  Forall (fun kv : string * json => utf8_valid (fst kv) = true /\ vok (S d) (snd kv)) m ->
  vok (S (S d)) (JObj m).
Proof.
  intros H. split.
  - cbn. apply forallb_forall. rewrite Forall_forall in H. intros x Hx.
    apply andb_true_iff. destruct (H x Hx) as [H1 [H2 _]]. auto.
  - cbn [jdepth]. apply -> Nat.succ_lt_mono.
    induction H as [|x l [_ [_ Hx]] _ IH]; cbn [map fold_right]; lia.
Qed.

Lemma parse_ok fuel :
  (forall d s j r, parse_value fuel d s = Some (j, r) -> d <> 0 -> vok d j) /\
  (forall d s l r, parse_elems fuel d s = Some (l, r) -> d <> 0 -> Forall (vok d) l) /\
  (forall d s m r, parse_members fuel d s = Some (m, r) -> d <> 0 ->
     Forall (fun kv => utf8_valid (fst kv) = true /\ vok d (snd kv)) m).
Proof.
  induction fuel as [|f (IHv & IHe & IHm)].
  { repeat split; intros; discriminate. }
  split; [|split].
  - intros d s j r H Hd. cbn [parse_value] in H.
    destruct (skip_ws s) as [|c q]; [discriminate|].
    destruct (Ascii.eqb c dquote).
    { destruct (parse_str q) as [[t q']|] eqn:E; [|discriminate]. inversion H; subst.
      apply parse_str_ok in E. split; [exact E|cbn; lia]. }
    destruct (Ascii.eqb c "[").
    { destruct d as [|[|d]]; try discriminate.
      destruct (skip_ws q) as [|c' q']; [discriminate|].
      destruct (Ascii.eqb c' "]").
      - inversion H; subst. apply arr_vok. constructor.
      - destruct (parse_elems f (S d) q) as [[l q2]|] eqn:E; [|discriminate].
        inversion H; subst. apply arr_vok. eapply IHe; [exact E|lia]. }
    destruct (Ascii.eqb c "{").
    { destruct d as [|[|d]]; try discriminate.
      destruct (skip_ws q) as [|c' q']; [discriminate|].
      destruct (Ascii.eqb c' "}").
      - inversion H; subst. apply obj_vok. constructor.
      - destruct (parse_members f (S d) q) as [[l q2]|] eqn:E; [|discriminate].
        inversion H; subst. apply obj_vok. eapply IHm; [exact E|lia]. }
    assert (Hs : forall p v, jtext_ok v = true -> jdepth v = 0 ->
              match strip_prefix p q with Some q0 => Some (v, q0) | None => None end = Some (j, r) -> vok d j).
    { intros p v Hv Hdv Hm. destruct (strip_prefix p q); [|discriminate]. inversion Hm; subst.
      split; [exact Hv|lia]. }
    destruct (Ascii.eqb c "n"); [eapply Hs; [| |exact H]; reflexivity|].
    destruct (Ascii.eqb c "t"); [eapply Hs; [| |exact H]; reflexivity|].
    destruct (Ascii.eqb c "f"); [eapply Hs; [| |exact H]; reflexivity|].
    destruct (take_num (String c q)) as [t q'].
    destruct (num_of_token t) eqn:E; [|discriminate]. inversion H; subst.
    apply num_token_ok in E as [E1 E2]. split; [exact E1|lia].
  - intros d s l r H Hd. cbn [parse_elems] in H.
    destruct (parse_value f d s) as [[v q]|] eqn:E; [|discriminate].
    apply IHv in E; [|exact Hd].
    destruct (skip_ws q) as [|c q']; [discriminate|].
    destruct (Ascii.eqb c "]").
    + inversion H; subst. constructor; [exact E|constructor].
    + destruct (Ascii.eqb c ","); [|discriminate].
      destruct (parse_elems f d q') as [[l' q2]|] eqn:E2; [|discriminate].
      inversion H; subst. constructor; [exact E|]. eapply IHe; eauto.
  - intros d s m r H Hd. cbn [parse_members] in H.
    destruct (skip_ws s) as [|c q]; [discriminate|].
    destruct (Ascii.eqb c dquote); [|discriminate].
    destruct (parse_str q) as [[k r1]|] eqn:Ek; [|discriminate]. apply parse_str_ok in Ek.
    destruct (skip_ws r1) as [|c1 r2]; [discriminate|].
    destruct (Ascii.eqb c1 ":"); [|discriminate].
    destruct (parse_value f d r2) as [[v r3]|] eqn:E; [|discriminate].
    apply IHv in E; [|exact Hd].
    destruct (skip_ws r3) as [|c2 r4]; [discriminate|].
    destruct (Ascii.eqb c2 "}").
    + inversion H; subst. constructor; [auto|constructor].
    + destruct (Ascii.eqb c2 ","); [|discriminate].
      destruct (parse_members f d r4) as [[l' q2]|] eqn:E2; [|discriminate].
      inversion H; subst. constructor; [auto|]. eapply IHm; eauto.
Qed.

Lemma parse_raw_ok s j : parse_raw s = Some j -> jtext_ok j = true /\ jdepth j <= 127.
Proof.
  unfold parse_raw. destruct (parse_value (2 * String.length s + 2) 128 s) as [[v r]|] eqn:E; [|discriminate].
  destruct (skip_ws r); [|discriminate]. intros H; inversion H; subst.
  apply (proj1 (parse_ok _)) in E; [|discriminate]. destruct E. split; [assumption|lia].
Qed.

Lemma normalize_text_ok j : jtext_ok j = true -> jtext_ok (normalize j) = true.
Proof.
  induction j using json_ind'; intros Hok; try exact Hok.
  - cbn in *. rewrite forallb_forall in *. rewrite Forall_forall in H.
    intros x Hx. apply in_map_iff in Hx as (y & <- & Hy). auto.
  - cbn in *. rewrite forallb_forall in *. rewrite Forall_forall in H.
    intros x Hx. apply in_fold_ins in Hx as [Hx|[]].
    apply in_map_iff in Hx as ([k v] & <- & Hy). cbn.
    specialize (Hok _ Hy). apply andb_true_iff in Hok as [H1 H2]. cbn in *.
    rewrite H1. apply (H (k, v) Hy H2).
Qed.

Lemma normalize_depth j : jdepth (normalize j) <= jdepth j.
Proof.
  induction j using json_ind'; try (cbn; lia).
  - cbn [normalize jdepth]. apply le_n_S.
    induction H as [|x l Hx _ IH]; cbn [map fold_right]; lia.
  - cbn [normalize jdepth]. apply le_n_S.
    assert (A : forall n (l : list (string * json)), (forall kv, In kv l -> jdepth (snd kv) <= n) ->
              fold_right Nat.max 0 (map (fun kv : string * json => jdepth (snd kv)) l) <= n).
    { intros n l. induction l as [|x l IH]; cbn [map fold_right]; intros Hl; [lia|].
      specialize (IH (fun kv Hin => Hl kv (or_intror Hin))).
      specialize (Hl x (or_introl eq_refl)). lia. }
    apply A. intros kv Hin. apply in_fold_ins in Hin as [Hin|[]].
    apply in_map_iff in Hin as ([k v] & <- & Hy). cbn [fst snd].
    rewrite Forall_forall in H. specialize (H _ Hy). cbn [snd] in H.
    etransitivity; [exact H|].
    apply (max_fold_le (map (fun kv : string * json => jdepth (snd kv)) m) (jdepth v)).
    apply in_map_iff. exists (k, v); auto.
Qed.

(** Whatever the text, the resulting value satisfies the invariants of [serde_json::Value]. *)
Lemma json_of_text_wf s j : json_of_text s = Some j -> jwf j = true /\ jdepth j <= 127.
Proof.
  unfold json_of_text. destruct (parse_raw s) as [r|] eqn:E; cbn; [|discriminate].
  intros H; inversion H; subst. apply parse_raw_ok in E as [E1 E2].
  unfold jwf. rewrite normalize_text_ok, normalize_jsorted by exact E1.
  split; [reflexivity|]. pose proof (normalize_depth r). lia.
Qed.
