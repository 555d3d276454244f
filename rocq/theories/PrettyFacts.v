(** Lemmas about [JsonPretty]: what is written is read back. *)
From Coq Require Import Lia.
From Verif Require Import Base BaseFacts Utf8 Json JsonFacts JsonText JsonTextFacts JsonPretty SpecJsonText GrammarFacts PfGrammar.

Lemma blank_app a b : blank a -> blank b -> blank (a +:+ b).
Proof. unfold blank, chars. intros A B. induction a as [|c a IH]; cbn in *; [exact B|]. inversion A; subst. constructor; auto. Qed.
Lemma blank_newline : blank newline.
Proof. constructor; [cbn; auto|constructor]. Qed.
Lemma blank_two : blank "  ".
Proof. repeat constructor. Qed.
Lemma blank_deeper ind : blank ind -> blank (newline +:+ ind +:+ "  ").
Proof. intros. repeat apply blank_app; auto using blank_newline, blank_two. Qed.
Lemma blank_close ind : blank ind -> blank (newline +:+ ind).
Proof. intros. apply blank_app; auto using blank_newline. Qed.

Lemma delim_close ind r : blank ind -> delim r = true -> delim (newline +:+ ind +:+ r) = true.
Proof. intros B D. apply delim_blank; [apply blank_newline|apply delim_blank; [exact B|exact D]]. Qed.

Definition elem_text (ind : string) (x : json) : string := newline +:+ (ind +:+ "  ") +:+ jpretty (ind +:+ "  ") x.
Definition pmember_text (ind : string) (kv : string * json) : string :=
  newline +:+ (ind +:+ "  ") +:+ print_str (fst kv) +:+ ": " +:+ jpretty (ind +:+ "  ") (snd kv).

Lemma jpretty_arr ind x l :
  jpretty ind (JArr (x :: l)) = "[" +:+ join "," (map (elem_text ind) (x :: l)) +:+ newline +:+ ind +:+ "]".
Proof. reflexivity. Qed.
Lemma jpretty_obj ind x l :
  jpretty ind (JObj (x :: l)) = "{" +:+ join "," (map (pmember_text ind) (x :: l)) +:+ newline +:+ ind +:+ "}".
Proof. reflexivity. Qed.

Definition RTP (j : json) : Prop := forall ind fuel d rest, blank ind ->
  need j <= fuel -> jdepth j < d -> delim rest = true ->
  parse_value fuel d (jpretty ind j +:+ rest) = Some (j, rest).

Lemma pretty_head ind j : jtext_ok j = true -> exists c r, jpretty ind j = String c r /\ head_ok c = true.
Proof.
  intros Ok. destruct j as [| | | | |l|m]; try (destruct (jprint_head _ Ok) as (c & r & E & H); exists c, r; split; [exact E|exact H]).
  - destruct l; [exists "["%char, "]"|eexists "["%char, _]; split; reflexivity.
  - destruct m; [exists "{"%char, "}"|eexists "{"%char, _]; split; reflexivity.
Qed.

Lemma pelems_rt ind l : blank ind -> Forall RTP l -> l <> [] ->
  forall fuel d rest,
  list_sum (map (fun x => 1 + need x) l) <= fuel -> fold_right Nat.max 0 (map jdepth l) < d ->
  parse_elems fuel d (join "," (map (elem_text ind) l) +:+ newline +:+ ind +:+ String "]" rest) = Some (l, rest).
Proof.
  intros Bi. induction l as [|x l IH]; intros Hrt Hne fuel d rest Hf Hd; [contradiction|].
  inversion Hrt as [|? ? Hx Hl]; subst.
  change (list_sum (map (fun x => 1 + need x) (x :: l))) with
    ((1 + need x) + list_sum (map (fun x => 1 + need x) l)) in Hf.
  change (fold_right Nat.max 0 (map jdepth (x :: l))) with
    (Nat.max (jdepth x) (fold_right Nat.max 0 (map jdepth l))) in Hd.
  destruct fuel as [|f]; [lia|].
  assert (Bd : blank (ind +:+ "  ")) by (apply blank_app; auto using blank_two).
  destruct l as [|y l].
  - cbn [map join]. cbn [parse_elems]. unfold elem_text. rewrite !sapp_assoc.
    rewrite (value_blank f d newline _ blank_newline), (value_blank f d ind _ Bi), (value_blank f d "  " _ blank_two).
    rewrite (Hx (ind +:+ "  ") f d) by (first [lia | exact Bd | (apply delim_close; [exact Bi|reflexivity])]).
    rewrite (skip_blank newline _ blank_newline), (skip_blank ind _ Bi). reflexivity.
  - change (join "," (map (elem_text ind) (x :: y :: l))) with (elem_text ind x +:+ "," +:+ join "," (map (elem_text ind) (y :: l))).
    unfold elem_text at 1. rewrite !sapp_assoc. cbn [parse_elems].
    rewrite (value_blank f d newline _ blank_newline), (value_blank f d ind _ Bi), (value_blank f d "  " _ blank_two).
    rewrite (Hx (ind +:+ "  ") f d) by (try lia; try exact Bd; reflexivity).
    cbn [String.append skip_ws]. change (is_ws ",") with false. cbv iota.
    change (Ascii.eqb "," "]") with false. change (Ascii.eqb "," ",") with true. cbv iota.
    rewrite IH; [reflexivity|assumption|discriminate| |]; lia.
Qed.

Lemma pmembers_rt ind m : blank ind -> Forall (fun kv : string * json => utf8_valid (fst kv) = true) m ->
  Forall (fun kv => RTP (snd kv)) m -> m <> [] ->
  forall fuel d rest,
  list_sum (map (fun kv => 1 + need (snd kv)) m) <= fuel ->
  fold_right Nat.max 0 (map (fun kv => jdepth (snd kv)) m) < d ->
  parse_members fuel d (join "," (map (pmember_text ind) m) +:+ newline +:+ ind +:+ String "}" rest) = Some (m, rest).
Proof.
  intros Bi. induction m as [|[k x] m IH]; intros Hok Hrt Hne fuel d rest Hf Hd; [contradiction|].
  inversion Hok as [|? ? Hk Hok']; inversion Hrt as [|? ? Hrx Hrt']; subst. cbn [fst snd] in *.
  change (list_sum (map (fun kv : string * json => 1 + need (snd kv)) ((k, x) :: m))) with
    ((1 + need x) + list_sum (map (fun kv : string * json => 1 + need (snd kv)) m)) in Hf.
  change (fold_right Nat.max 0 (map (fun kv : string * json => jdepth (snd kv)) ((k, x) :: m))) with
    (Nat.max (jdepth x) (fold_right Nat.max 0 (map (fun kv : string * json => jdepth (snd kv)) m))) in Hd.
  destruct fuel as [|f]; [lia|].
  assert (Bd : blank (ind +:+ "  ")) by (apply blank_app; auto using blank_two).
  assert (Hstep : forall tail, delim tail = true ->
    parse_members (S f) d (pmember_text ind (k, x) +:+ tail) =
    match skip_ws tail with
    | String c2 q =>
        if Ascii.eqb c2 "}" then Some ([(k, x)], q)
        else if Ascii.eqb c2 "," then
          match parse_members f d q with Some (l, q') => Some ((k, x) :: l, q') | None => None end
        else None
    | EmptyString => None
    end).
  { intros tail Htail. unfold pmember_text, print_str. cbn [fst snd].
    rewrite !sapp_assoc. cbn [parse_members].
    rewrite (skip_blank newline _ blank_newline), (skip_blank ind _ Bi), (skip_blank "  " _ blank_two).
    cbn [String.append skip_ws].
    change (is_ws dquote) with false. cbv iota. change (Ascii.eqb dquote dquote) with true. cbv iota.
    rewrite sapp_assoc. cbn [s1 String.append].
    rewrite parse_str_print by exact Hk. cbn [skip_ws].
    change (is_ws ":") with false. cbv iota. change (Ascii.eqb ":" ":") with true. cbv iota.
    change (String " " (jpretty (ind +:+ "  ") x +:+ tail)) with (" " +:+ (jpretty (ind +:+ "  ") x +:+ tail)).
    rewrite (value_blank f d " ") by (repeat constructor).
    rewrite (Hrx (ind +:+ "  ") f d tail) by (try lia; try exact Bd; exact Htail). reflexivity. }
  destruct m as [|y m].
  - cbn [map join]. rewrite Hstep by (apply delim_close; [exact Bi|reflexivity]).
    rewrite (skip_blank newline _ blank_newline), (skip_blank ind _ Bi). reflexivity.
  - change (join "," (map (pmember_text ind) ((k, x) :: y :: m))) with
      (pmember_text ind (k, x) +:+ "," +:+ join "," (map (pmember_text ind) (y :: m))).
    rewrite !(sapp_assoc (pmember_text _ _)), !(sapp_assoc ","). rewrite Hstep by reflexivity.
    cbn [String.append skip_ws]. change (is_ws ",") with false. cbv iota.
    change (Ascii.eqb "," "}") with false. change (Ascii.eqb "," ",") with true. cbv iota.
    rewrite IH; [reflexivity|assumption|assumption|discriminate| |]; lia.
Qed.

Lemma join_starts (f : json -> string) ind x l c r : blank ind -> f x = ind +:+ String c r -> forall rest,
  exists q, join "," (map f (x :: l)) +:+ rest = ind +:+ String c q.
Proof.
  intros _ E rest. destruct l as [|y l].
  - cbn [map join]. rewrite E, sapp_assoc. eexists. reflexivity.
  - change (join "," (map f (x :: y :: l))) with (f x +:+ "," +:+ join "," (map f (y :: l))).
    rewrite E, !sapp_assoc. eexists. reflexivity.
Qed.

Lemma pretty_rt j : jtext_ok j = true -> RTP j.
Proof.
  induction j using json_ind'; intros Hok ind fuel d rest Bi Hf Hd Hr;
    try (apply (value_rt _ Hok); assumption).
  - assert (Hokl : Forall (fun j => jtext_ok j = true) l).
    { apply Forall_forall. apply forallb_forall. exact Hok. }
    assert (Hrt : Forall RTP l).
    { rewrite Forall_forall in *. auto. }
    change (need (JArr l)) with (1 + list_sum (map (fun x => 1 + need x) l)) in Hf.
    change (jdepth (JArr l)) with (S (fold_right Nat.max 0 (map jdepth l))) in Hd.
    destruct fuel as [|f]; [lia|]. destruct d as [|[|d]]; [lia|lia|].
    destruct l as [|x l]; [reflexivity|]. rewrite jpretty_arr, !sapp_assoc.
    cbn [String.append parse_value skip_ws]. change (is_ws "[") with false. cbv iota.
    change (Ascii.eqb "[" dquote) with false. change (Ascii.eqb "[" "[") with true. cbv iota.
    assert (exists c r, skip_ws (join "," (map (elem_text ind) (x :: l)) +:+ newline +:+ ind +:+ String "]" rest) = String c r /\ head_ok c = true) as (c & r & E & Hc).
    { inversion Hokl; subst. destruct (pretty_head (ind +:+ "  ") x H2) as (c & r & E & Hc).
      assert (Bd : blank (newline +:+ ind +:+ "  ")) by now apply blank_deeper.
      assert (Eh : join "," (map (elem_text ind) (x :: l)) = elem_text ind x +:+ match l with [] => "" | _ => "," +:+ join "," (map (elem_text ind) l) end).
      { destruct l; [cbn [map join]; now rewrite sapp_nil_r|reflexivity]. }
      rewrite Eh. unfold elem_text at 1. rewrite E, !sapp_assoc.
      rewrite (skip_blank newline _ blank_newline), (skip_blank ind _ Bi), (skip_blank "  " _ blank_two).
      cbn [String.append]. exists c. eexists. split; [rewrite head_ok_not_ws by exact Hc; reflexivity|exact Hc]. }
    rewrite E. destruct (head_not c Hc) as [-> _].
    rewrite (pelems_rt ind (x :: l) Bi Hrt ltac:(discriminate) f (S d) rest ltac:(lia) ltac:(lia)). reflexivity.
  - assert (Hokl : Forall (fun kv : string * json => utf8_valid (fst kv) = true /\ jtext_ok (snd kv) = true) m).
    { apply Forall_forall. cbn in Hok. rewrite forallb_forall in Hok. intros kv Hin.
      apply andb_true_iff, Hok, Hin. }
    assert (Hk : Forall (fun kv : string * json => utf8_valid (fst kv) = true) m).
    { rewrite Forall_forall in *. intros kv Hin. apply Hokl; exact Hin. }
    assert (Hrt : Forall (fun kv : string * json => RTP (snd kv)) m).
    { rewrite Forall_forall in *. intros kv Hin. apply H; [exact Hin|]. apply Hokl; exact Hin. }
    change (need (JObj m)) with (1 + list_sum (map (fun kv : string * json => 1 + need (snd kv)) m)) in Hf.
    change (jdepth (JObj m)) with (S (fold_right Nat.max 0 (map (fun kv : string * json => jdepth (snd kv)) m))) in Hd.
    destruct fuel as [|f]; [lia|]. destruct d as [|[|d]]; [lia|lia|].
    destruct m as [|[k x] m]; [reflexivity|]. rewrite jpretty_obj, !sapp_assoc.
    cbn [String.append parse_value skip_ws]. change (is_ws "{") with false. cbv iota.
    change (Ascii.eqb "{" dquote) with false. change (Ascii.eqb "{" "[") with false.
    change (Ascii.eqb "{" "{") with true. cbv iota.
    assert (exists r, skip_ws (join "," (map (pmember_text ind) ((k, x) :: m)) +:+ newline +:+ ind +:+ String "}" rest) = String dquote r) as (r & E).
    { assert (Eh : join "," (map (pmember_text ind) ((k, x) :: m)) = pmember_text ind (k, x) +:+ match m with [] => "" | _ => "," +:+ join "," (map (pmember_text ind) m) end).
      { destruct m; [cbn [map join]; now rewrite sapp_nil_r|reflexivity]. }
      rewrite Eh. unfold pmember_text at 1, print_str. rewrite !sapp_assoc.
      rewrite (skip_blank newline _ blank_newline), (skip_blank ind _ Bi), (skip_blank "  " _ blank_two).
      cbn [String.append]. eexists. reflexivity. }
    rewrite E. change (Ascii.eqb dquote "}") with false. cbv iota.
    rewrite (pmembers_rt ind ((k, x) :: m) Bi Hk Hrt ltac:(discriminate) f (S d) rest ltac:(lia) ltac:(lia)). reflexivity.
Qed.

Lemma join_le {A} (f g : A -> string) l : (forall x, In x l -> String.length (f x) <= String.length (g x)) ->
  String.length (join "," (map f l)) <= String.length (join "," (map g l)).
Proof.
  intros H. rewrite !join_len, !map_length. apply Nat.add_le_mono_r. induction l as [|x l IH]; [cbn; lia|].
  cbn [map list_sum fold_right]. pose proof (H x (or_introl eq_refl)).
  specialize (IH (fun y i => H y (or_intror i))). unfold list_sum in IH. lia.
Qed.

Lemma pretty_len j : forall ind, String.length (jprint j) <= String.length (jpretty ind j).
Proof.
  induction j using json_ind'; intros ind; try (cbn; lia).
  - destruct l as [|x l]; [cbn; lia|]. rewrite jpretty_arr. change (jprint (JArr (x :: l))) with ("[" +:+ join "," (map jprint (x :: l)) +:+ "]").
    rewrite !slen_app. rewrite Forall_forall in H.
    enough (String.length (join "," (map jprint (x :: l))) <= String.length (join "," (map (elem_text ind) (x :: l)))) by (cbn [String.length]; lia).
    apply join_le. intros y i. unfold elem_text. rewrite !slen_app. specialize (H y i (ind +:+ "  ")). lia.
  - destruct m as [|x m]; [cbn; lia|]. rewrite jpretty_obj, jprint_obj. cbn [String.append String.length]. rewrite !slen_app. rewrite Forall_forall in H.
    enough (String.length (join "," (map member_text (x :: m))) <= String.length (join "," (map (pmember_text ind) (x :: m)))) by (cbn [String.length]; lia).
    apply join_le. intros y i. unfold pmember_text, member_text. rewrite !slen_app. specialize (H y i (ind +:+ "  ")). cbn [String.length]. lia.
Qed.

Lemma parse_raw_pretty j : jtext_ok j = true -> jdepth j <= 127 -> parse_raw (jpretty "" j) = Some j.
Proof.
  intros Hok Hd. unfold parse_raw.
  pose proof (pretty_rt j Hok "" (2 * String.length (jpretty "" j) + 2) 128 EmptyString) as H.
  rewrite sapp_nil_r in H. rewrite H; [reflexivity|constructor| |lia|reflexivity].
  pose proof (need_le j Hok). pose proof (pretty_len j ""). lia.
Qed.
