From Coq Require Import Lia.
From Verif Require Import Base BaseFacts Utf8 Utf8Facts JsonText JsonTextFacts Base64Facts UrlEncoded UrlEncodedFacts Url WebUrl SpecWebUrl PfWebUrl.

Lemma no_char c s : ~ In c (chars s) <-> has_char c s = false.
Proof. rewrite in_chars. destruct (has_char c s); split; congruence. Qed.
Lemma kept_iff ex c : kept ex c <-> cl ex c = true.
Proof.
  unfold kept, cl. rewrite andb_true_iff, !negb_true_iff, no_char. rewrite controls_iff. reflexivity.
Qed.
Lemma hex_iff d h : (d < 16)%N -> hex_of d h <-> hex_upper d = h.
Proof.
  intros L. unfold hex_of.
  assert (K : forallb (fun k => match nth_error (chars "0123456789ABCDEF") k with Some h => Ascii.eqb (hex_upper (N.of_nat k)) h | None => false end) (seq 0 16) = true) by (vm_compute; reflexivity).
  rewrite forallb_forall in K. specialize (K (N.to_nat d)). rewrite N2Nat.id in K. specialize (K ltac:(apply in_seq; lia)).
  destruct (nth_error _ _) as [x|]; [|discriminate]. apply Ascii.eqb_eq in K. subst x. split; congruence.
Qed.
Lemma nibbles c : (byte c / 16 < 16)%N /\ (byte c mod 16 < 16)%N.
Proof. split; [apply N.div_lt_upper_bound; [lia|]; assert (B := byte_lt c); lia|apply N.mod_lt; lia]. Qed.
Lemma escaped_iff set ex s t : (forall c, negb (set c) = cl ex c) -> escaped ex s t <-> pct set s = t.
Proof.
  intros E. split.
  - intros X. induction X as [|c s t K X IH|c h l s t K Hh Hl X IH]; [reflexivity| |]; cbn [pct]; unfold pct_char.
    + apply kept_iff in K. rewrite <- E, negb_true_iff in K. rewrite K, IH. reflexivity.
    + rewrite kept_iff, <- E, negb_true_iff in K. apply not_false_is_true in K. destruct (nibbles c) as [L1 L2].
      apply hex_iff in Hh, Hl; [|assumption|assumption]. rewrite K, IH, Hh, Hl. reflexivity.
  - revert t. induction s as [|c s IH]; intros t <-; [constructor|]. cbn [pct]. unfold pct_char. destruct (set c) eqn:S; cbn [String.append s1].
    + destruct (nibbles c) as [L1 L2]. apply escaped_byte; [|now apply hex_iff|now apply hex_iff|now apply IH]. rewrite kept_iff, <- E, S. discriminate.
    + apply escaped_kept; [|now apply IH]. rewrite kept_iff, <- E, S. reflexivity.
Qed.
Lemma escaped_path s t : escaped " ""<>`#?{}" s t <-> pct in_path s = t. Proof. now apply escaped_iff, path_set. Qed.
Lemma escaped_user s t : escaped " ""<>`#?{}/:;=@[\]^|" s t <-> pct in_userinfo s = t. Proof. now apply escaped_iff, user_set. Qed.
Lemma escaped_fragment s t : escaped " ""<>`" s t <-> pct in_fragment s = t. Proof. now apply escaped_iff, frag_set. Qed.
Lemma escaped_controls s t : escaped "" s t <-> pct in_controls s = t. Proof. now apply escaped_iff, ctrl_set. Qed.
Lemma escaped_query scheme s t :
  special scheme /\ escaped " ""#<>'" s t \/ ~ special scheme /\ escaped " ""#<>" s t <-> pct (in_query (mem_str scheme special_schemes)) s = t.
Proof.
  rewrite (escaped_iff (in_query true) _ s t (query_set true)), (escaped_iff (in_query false) _ s t (query_set false)).
  destruct (mem_str scheme special_schemes) eqn:M.
  - apply special_iff in M. tauto.
  - apply special_false in M. tauto.
Qed.

(* ------------------------------------------------------------ the ends of the text *)
Lemma trim_left_spec s : exists a, s = a +:+ trim_left s /\ str_all control_or_space a = true /\ (forall c r, trim_left s = String c r -> control_or_space c = false).
Proof.
  induction s as [|c s (a & E & A & F)]; [exists ""; repeat split; discriminate|]. cbn [trim_left]. destruct (control_or_space c) eqn:C.
  - exists (String c a). split; [cbn [String.append]; now rewrite <- E|]. split; [cbn [str_all]; now rewrite C|exact F].
  - exists "". repeat split. intros d r X. injection X as <- _. exact C.
Qed.
Lemma trim_right_spec s : exists b, s = trim_right s +:+ b /\ str_all control_or_space b = true /\ (forall c r, trim_right s = r +:+ s1 c -> control_or_space c = false).
Proof.
  assert (T : forall c r, trim_right s = r +:+ s1 c -> control_or_space c = false).
  { intros c r X. destruct (control_or_space c) eqn:C; [|reflexivity]. now elim (trim_tab s c r C). }
  assert (B : exists b, s = trim_right s +:+ b /\ str_all control_or_space b = true).
  { clear T. induction s as [|c s (b & E & B)]; [now exists ""|]. cbn [trim_right]. destruct (trim_right s) as [|d t].
    - cbn [String.append] in E. subst b. destruct (control_or_space c) eqn:C; [exists (String c s); split; [reflexivity|cbn [str_all]; now rewrite C]|exists s; now split].
    - exists b. split; [cbn [String.append]; f_equal; exact E|exact B]. }
  destruct B as (b & E & B). now exists b.
Qed.
Lemma control_iff s : (forall c, In c (chars s) -> (byte c <= 32)%N) <-> str_all control_or_space s = true.
Proof. rewrite str_all_chars. unfold control_or_space. split; intros X c I; specialize (X c I); now apply N.leb_le. Qed.
Lemma control_false c : control_or_space c = false <-> (32 < byte c)%N.
Proof. unfold control_or_space. apply N.leb_gt. Qed.
Lemma tabs_iff t m : chars t = filter (fun c => negb (existsb (N.eqb (byte c)) [9; 10; 13]%N)) (chars m) <-> drop_tabs m = t.
Proof.
  assert (E : chars (drop_tabs m) = filter (fun c => negb (existsb (N.eqb (byte c)) [9; 10; 13]%N)) (chars m)).
  { induction m as [|c m IH]; [reflexivity|]. cbn [drop_tabs]. change (chars (String c m)) with (c :: chars m). cbn [filter].
    replace (existsb (N.eqb (byte c)) [9; 10; 13]%N) with (tab_or_newline c).
    - destruct (tab_or_newline c); cbn [negb]; [exact IH|]. change (chars (String c (drop_tabs m))) with (c :: chars (drop_tabs m)). now rewrite IH.
    - unfold tab_or_newline. cbn [existsb]. now rewrite orb_false_r, orb_assoc. }
  rewrite <- E. split; [|intros ->; reflexivity]. intros X. unfold chars in X. apply (f_equal string_of_list_ascii) in X.
  now rewrite !string_of_list_ascii_of_string in X.
Qed.
Lemma all_app_str f a b : str_all f (a +:+ b) = true -> str_all f a = true /\ str_all f b = true.
Proof. rewrite str_all_app. apply andb_true_iff. Qed.
Lemma trim_left_app a m : str_all control_or_space a = true -> (forall c r, m = String c r -> control_or_space c = false) -> trim_left (a +:+ m) = m.
Proof.
  intros A M. induction a as [|c a IH].
  - destruct m as [|c m]; [reflexivity|]. cbn [String.append trim_left]. now rewrite (M c m eq_refl).
  - cbn [str_all] in A. apply andb_true_iff in A as [A1 A2]. cbn [String.append trim_left]. rewrite A1. now apply IH.
Qed.
Lemma trim_right_all b : str_all control_or_space b = true -> trim_right b = "".
Proof. induction b as [|c b IH]; [reflexivity|]. cbn [str_all trim_right]. rewrite andb_true_iff. intros [C B]. now rewrite (IH B), C. Qed.
Lemma trim_right_app m b : str_all control_or_space b = true -> (forall c r, m = r +:+ s1 c -> control_or_space c = false) -> trim_right (m +:+ b) = m.
Proof.
  intros B M. induction m as [|c m IH]; [now apply trim_right_all|]. cbn [String.append trim_right].
  rewrite IH by (intros d r ->; now apply (M d (String c r))). destruct m as [|d m]; [|reflexivity]. now rewrite (M c "" eq_refl).
Qed.
Lemma stripped_iff s t : stripped s t <-> drop_tabs (trim_right (trim_left s)) = t.
Proof.
  split.
  - intros (a & m & b & -> & A & B & M1 & M2 & T). apply tabs_iff in T. rewrite control_iff in A, B.
    rewrite <- sapp_assoc.
    assert (M1' : forall c r, m = String c r -> control_or_space c = false) by (intros c r X; apply control_false; now apply (M1 c r)).
    assert (M2' : forall c r, m = r +:+ s1 c -> control_or_space c = false) by (intros c r X; apply control_false; now apply (M2 c r)).
    rewrite sapp_assoc. destruct m as [|c m].
    + cbn [String.append]. assert (X : trim_right (trim_left (a +:+ b)) = "").
      { destruct (trim_left_spec (a +:+ b)) as (a' & E & _). apply trim_right_all. assert (Y : str_all control_or_space (a +:+ b) = true) by (rewrite str_all_app, A, B; reflexivity).
        rewrite E in Y. now apply all_app_str in Y. }
      now rewrite X.
    + rewrite trim_left_app; [|exact A|intros d r X; injection X as <- _; now apply (M1' c m)]. rewrite trim_right_app; [exact T|exact B|exact M2'].
  - intros <-. destruct (trim_left_spec s) as (a & E & A & F). destruct (trim_right_spec (trim_left s)) as (b & E2 & B & F2).
    exists a, (trim_right (trim_left s)), b. split; [rewrite <- E2; exact E|]. split; [now apply control_iff|]. split; [now apply control_iff|]. split; [|split].
    + intros c r X. apply control_false. rewrite X in E2. now apply (F c (r +:+ b)).
    + intros c r X. apply control_false. now apply (F2 c r).
    + now apply tabs_iff.
Qed.
Lemma map_chars (P : ascii -> ascii -> Prop) (f : ascii -> ascii) (g : string -> string) :
  (forall c d, P c d <-> f c = d) -> (g "" = "") -> (forall c r, g (String c r) = String (f c) (g r)) ->
  forall s t, Forall2 P (chars s) (chars t) <-> g s = t.
Proof.
  intros Pf G0 G1. induction s as [|c s IH]; intros t.
  - rewrite G0. split; [|intros <-; constructor]. destruct t as [|d t]; [reflexivity|]. intros X. inversion X.
  - rewrite G1. change (chars (String c s)) with (c :: chars s). split.
    + destruct t as [|d t]; intros X; [inversion X|]. change (chars (String d t)) with (d :: chars t) in X. inversion X; subst. f_equal; [now apply Pf|now apply IH].
    + intros <-. change (chars (String (f c) (g s))) with (f c :: chars (g s)). constructor; [now apply Pf|now apply IH].
Qed.
Lemma letters_iff s t : in_small_letters s t <-> lowered s = t.
Proof.
  unfold in_small_letters. apply (map_chars _ to_lower lowered); [|reflexivity|reflexivity]. intros c d. unfold to_lower, upper_alpha, in_range.
  assert (B := byte_lt c). destruct (N.leb_spec 65 (byte c)); destruct (N.leb_spec (byte c) 90); cbn [andb].
  - split.
    + intros [[_ X]|[X _]]; [|lia]. apply byte_inj. rewrite byte_chr by lia. now symmetry.
    + intros <-. left. split; [lia|]. apply byte_chr. lia.
  - split; [intros [[X _]|[_ ->]]; [lia|reflexivity]|intros ->; right; split; [lia|reflexivity]].
  - split; [intros [[X _]|[_ ->]]; [lia|reflexivity]|intros ->; right; split; [lia|reflexivity]].
  - split; [intros [[X _]|[_ ->]]; [lia|reflexivity]|intros ->; right; split; [lia|reflexivity]].
Qed.
Lemma slashes_iff s t : with_slashes s t <-> unbackslash s = t.
Proof.
  unfold with_slashes. apply (map_chars _ (fun c => if Ascii.eqb c "\" then "/"%char else c) unbackslash); [|reflexivity|reflexivity]. intros c d.
  destruct (Ascii.eqb_spec c "\") as [->|N]; split.
  - intros [[_ ->]|[X _]]; [reflexivity|congruence].
  - intros <-. now left.
  - intros [[X _]|[_ ->]]; [congruence|reflexivity].
  - intros ->. now right.
Qed.

(* ------------------------------------------------------------ paths *)
Lemma single_iff s : single_dot s = true <-> In s ["."; "%2e"; "%2E"].
Proof. apply mem_str_iff. Qed.
Lemma double_iff s : double_dot s = true <-> In s dots /\ ~ In s ["."; "%2e"; "%2E"].
Proof.
  unfold double_dot. rewrite mem_str_iff. unfold dots. cbn [In]. split.
  - intros X. split; [tauto|]. intros Y. destruct X as [<-|X]; [intuition discriminate|]. repeat (destruct X as [<-|X]; [intuition discriminate|]). contradiction.
  - tauto.
Qed.
Lemma rev_removelast {A} (l : list A) : rev (removelast l) = tl (rev l).
Proof. destruct l as [|x l] using rev_ind; [reflexivity|]. rewrite removelast_last, rev_app_distr. reflexivity. Qed.
Lemma walk_visits l : forall at_ r, l <> [] ->
  walk (rev at_) l = r <-> exists to, visits at_ l to /\ (In (last l "") dots /\ r = to ++ [""] \/ ~ In (last l "") dots /\ r = to).
Proof.
  induction l as [|s l IH]; intros at_ r N; [congruence|]. cbn [walk].
  set (b := if double_dot s then tl (rev at_) else if single_dot s then rev at_ else pct in_path s :: rev at_).
  set (at' := if double_dot s then removelast at_ else if single_dot s then at_ else at_ ++ [pct in_path s]).
  assert (B : b = rev at').
  { unfold b, at'. destruct (double_dot s); [now rewrite rev_removelast|]. destruct (single_dot s); [reflexivity|]. now rewrite rev_app_distr. }
  assert (V : forall l to, visits at_ (s :: l) to <-> visits at' l to).
  { intros l0 to. unfold at'. destruct (double_dot s) eqn:D.
    - apply double_iff in D as [D1 D2]. split; [|now apply visits_up]. intros X. inversion X; subst; [contradiction|assumption|contradiction].
    - destruct (single_dot s) eqn:S.
      + apply single_iff in S. split; [|now apply visits_here]. intros X. inversion X as [|? ? ? ? Y|? ? ? ? ? Y|? ? t ? ? Nd E Y]; subst; [assumption|contradiction|]. elim Nd. unfold dots. cbn [In] in *. tauto.
      + assert (Nd : ~ In s dots) by (rewrite <- dot_iff, D, S; discriminate). split.
        * intros X. inversion X as [|? ? ? ? Y| |? ? t ? ? Nd' E Y]; subst; [apply single_iff in Y; congruence|contradiction|]. apply escaped_path in E. now rewrite E.
        * intros X. apply (visits_down at_ s (pct in_path s)); [exact Nd|now apply escaped_path|exact X]. }
  rewrite B. destruct l as [|s' l].
  - cbn [last]. destruct (double_dot s || single_dot s) eqn:D.
    + apply dot_iff in D. change (rev ("" :: rev at')) with (rev (rev at') ++ [""]). rewrite rev_involutive. split.
      * intros <-. exists at'. split; [apply V; constructor|now left].
      * intros (to & X & [[_ ->]|[Y _]]); [|contradiction]. apply V in X. now inversion X; subst.
    + assert (Nd : ~ In s dots) by (rewrite <- dot_iff, D; discriminate). rewrite rev_involutive. split.
      * intros <-. exists at'. split; [apply V; constructor|now right].
      * intros (to & X & [[Y _]|[_ ->]]); [contradiction|]. apply V in X. now inversion X; subst.
  - change (last (s :: s' :: l) "") with (last (s' :: l) ""). rewrite IH by discriminate. split; intros (to & X & Y); exists to; (split; [now apply V|exact Y]).
Qed.
Lemma join_split c s : join (s1 c) (split_all c s) = s.
Proof.
  induction s as [|d s IH]; [reflexivity|]. cbn [split_all]. destruct (Ascii.eqb_spec c d) as [<-|N].
  - destruct (split_all c s) as [|p ps] eqn:E; [now apply split_all_nonempty in E|]. change (join (s1 c) ("" :: p :: ps)) with (s1 c +:+ join (s1 c) (p :: ps)). now rewrite IH.
  - destruct (split_all c s) as [|p ps] eqn:E; [now apply split_all_nonempty in E|]. destruct ps as [|p' ps]; cbn [join] in IH |- *; [now rewrite IH|]. cbn [String.append]. now rewrite IH.
Qed.
Lemma path_reads_iff p r : (p = "" \/ exists x, p = String "/" x) -> path_reads p r <-> segments p = r.
Proof.
  intros P. unfold segments.
  set (x := match p with String _ r => r | "" => "" end).
  assert (X : forall y, p = "" /\ y = "" \/ p = String "/" y <-> y = x).
  { intros y. unfold x. destruct P as [->|[z ->]]; split; [intros [[_ ->]|Y]; [reflexivity|discriminate]|intros ->; now left| |intros ->; now right].
    intros [[Y _]|Y]; [discriminate|congruence]. }
  change (@nil string) with (rev (@nil string)). rewrite (walk_visits _ [] r (split_all_nonempty "/" x)). split.
  - intros (l & y & to & Y & N & J & S & V & L). apply X in Y. subst y.
    assert (E : split_all "/" x = l).
    { rewrite J. apply split_join_slash; [exact N|]. intros s I. now apply no_char, S. }
    rewrite E. now exists to.
  - intros (to & V & L). exists (split_all "/" x), x, to. split; [now apply X|]. split; [apply split_all_nonempty|]. split; [symmetry; apply (join_split "/")|].
    split; [intros s I; apply no_char; now apply split_all_no in I|]. now split.
Qed.
Lemma path_reads_start p r : path_reads p r -> p = "" \/ exists x, p = String "/" x.
Proof. intros (l & x & to & [[-> _]| ->] & _); [now left|right; now exists x]. Qed.

(* ------------------------------------------------------------ the authority *)
Lemma split_tail c a o : has_char c a = false -> split_opt c (a +:+ tail_of c o) = (a, o).
Proof. intros A. destruct o as [x|]; cbn [tail_of]; [now apply split_opt_at|]. rewrite sapp_nil_r. now apply split_opt_none. Qed.
Lemma split_tail_iff c s a o : split_opt c s = (a, o) <-> s = a +:+ tail_of c o /\ has_char c a = false.
Proof.
  split.
  - intros X. apply split_opt_out in X as [N ->]. split; [|exact N]. destruct o; reflexivity.
  - intros [-> N]. now apply split_tail.
Qed.
Lemma eqb_pct set p : String.eqb (pct set p) "" = String.eqb p "".
Proof. destruct (String.eqb_spec p "") as [->|N]; [reflexivity|]. apply String.eqb_neq. intros X. now apply pct_nil in X. Qed.
Lemma user_reads_iff u t : user_reads u t <-> userinfo_text u = t.
Proof.
  assert (K : forall name password, userinfo_text u = t -> (u = name +:+ ":" +:+ password \/ u = name /\ password = "") -> has_char ":" name = false ->
    (u = "" \/ u = ":" -> t = "") /\ (u <> "" -> u <> ":" -> t = pct in_userinfo name +:+ (if String.eqb (pct in_userinfo password) "" then "" else ":" +:+ pct in_userinfo password) +:+ "@")).
  { intros name password <- E N. split; [intros [->| ->]; reflexivity|]. intros N1 N2. unfold userinfo_text. rewrite eqb_pct.
    destruct E as [E|[E ->]].
    - assert (S : split_opt ":" u = (name, Some password)) by (rewrite E; now apply split_opt_at). rewrite S.
      destruct (String.eqb_spec name "") as [->|Nn]; destruct (String.eqb_spec password "") as [->|Np]; cbn [andb]; try reflexivity. elim N2. exact E.
    - subst name. rewrite (split_opt_none ":" u N). cbn [String.eqb]. rewrite andb_true_r, (eqb_nonempty u N1). reflexivity. }
  split.
  - intros (name & password & name' & password' & E & N & En & Ep & T1 & T2). apply no_char in N. apply escaped_user in En, Ep. subst name' password'.
    assert (K' := fun T => K name password T E N). clear K. unfold userinfo_text in *.
    destruct (String.eqb_spec u "") as [->|N1]; [rewrite T1 by (now left); reflexivity|].
    destruct (String.eqb_spec u ":") as [->|N2]; [rewrite T1 by (now right); reflexivity|].
    rewrite (T2 N1 N2), eqb_pct. destruct E as [E|[E ->]].
    + assert (S : split_opt ":" u = (name, Some password)) by (rewrite E; now apply split_opt_at). rewrite S.
      destruct (String.eqb_spec name "") as [->|Nn]; destruct (String.eqb_spec password "") as [->|Np]; cbn [andb]; try reflexivity. elim N2. exact E.
    + subst name. rewrite (split_opt_none ":" u N). cbn [String.eqb]. rewrite andb_true_r, (eqb_nonempty u N1). reflexivity.
  - intros T. destruct (split_opt ":" u) as [name o] eqn:S. apply split_tail_iff in S as [E N].
    exists name, (match o with Some p => p | None => "" end), (pct in_userinfo name), (pct in_userinfo (match o with Some p => p | None => "" end)).
    assert (E' : u = name +:+ ":" +:+ (match o with Some p => p | None => "" end) \/ u = name /\ (match o with Some p => p | None => "" end) = "").
    { destruct o as [p|]; cbn [tail_of] in E; [now left|]. right. now rewrite sapp_nil_r in E. }
    destruct (K _ _ T E' N) as [K1 K2]. split; [exact E'|]. split; [now apply no_char|]. split; [now apply escaped_user|]. split; [now apply escaped_user|]. now split.
Qed.

Lemma value_digits d : digits_val 0 d = value_of d.
Proof.
  unfold value_of. generalize 0%N. induction d as [|c d IH]; intros n; [reflexivity|]. cbn [digits_val]. rewrite IH. reflexivity.
Qed.
Lemma digits_iff d : (forall c, In c (chars d) -> (48 <= byte c <= 57)%N) <-> str_all is_digit d = true.
Proof.
  rewrite str_all_chars. unfold is_digit, in_range. split; intros X c I; specialize (X c I); [rewrite andb_true_iff, !N.leb_le; exact X|].
  rewrite andb_true_iff, !N.leb_le in X. exact X.
Qed.
Lemma port_reads_iff scheme s t : port_reads scheme s t <->
  exists pt o, s = tail_of ":" pt /\ match pt with Some d => read_port scheme d | None => Some None end = Some o /\ t = port_text o.
Proof.
  split.
  - intros [[-> ->]|[[-> ->]|(d & -> & N & D & L & U)]].
    + exists None, None. repeat split.
    + exists (Some ""), None. repeat split.
    + exists (Some d). apply digits_iff in D. unfold read_port. rewrite (eqb_nonempty d N), D, value_digits. apply N.leb_le in L. rewrite L.
      eexists. split; [reflexivity|]. split; [reflexivity|]. destruct U as [[U ->]|[U ->]].
      * apply default_iff in U. rewrite U, N.eqb_refl. reflexivity.
      * rewrite <- default_iff in U. destruct (default_port scheme) as [x|]; [|reflexivity]. destruct (N.eqb_spec (value_of d) x) as [<-|_]; [congruence|reflexivity].
  - intros (pt & o & -> & R & ->). destruct pt as [d|]; cbn [tail_of]; [|injection R as <-; now left].
    unfold read_port in R. destruct (String.eqb_spec d "") as [->|N]; [injection R as <-; right; left; now split|].
    destruct (str_all is_digit d) eqn:D; [|discriminate]. rewrite value_digits in R. destruct (N.leb_spec (value_of d) 65535) as [L|L]; [|discriminate]. injection R as <-.
    right. right. exists d. split; [reflexivity|]. split; [exact N|]. split; [now apply digits_iff|]. split; [exact L|]. rewrite <- default_iff.
    destruct (default_port scheme) as [x|]; [|right; split; [discriminate|reflexivity]].
    destruct (N.eqb_spec (value_of d) x) as [<-|E]; [left; now split|right; split; [congruence|reflexivity]].
Qed.

Section Reads.
Variables domain ipv6 : string -> option string.
Lemma starts_bracket s : (forall r, s <> "[" +:+ r) <-> strip_prefix "[" s = None.
Proof.
  split.
  - intros X. destruct (strip_prefix "[" s) as [r|] eqn:E; [|reflexivity]. apply strip_prefix_some in E. now elim (X r).
  - intros X r ->. rewrite strip_prefix_app in X. discriminate.
Qed.
Lemma opaque_iff s : (forall c, In c (chars s) -> byte c <> 0%N /\ ~ In c (chars " #/:<>?@[\]^|"))
  <-> str_all (fun c => negb (has_char c (String (chr 0) " #/:<>?@[\]^|"))) s = true.
Proof.
  rewrite str_all_chars.
  assert (K : forall c, negb (has_char c (String (chr 0) " #/:<>?@[\]^|")) = true <-> byte c <> 0%N /\ ~ In c (chars " #/:<>?@[\]^|")).
  { intros c. rewrite negb_true_iff, no_char. change (has_char c (String (chr 0) " #/:<>?@[\]^|")) with (Ascii.eqb c (chr 0) || has_char c " #/:<>?@[\]^|").
    rewrite orb_false_iff. destruct (Ascii.eqb_spec c (chr 0)) as [->|N].
    - split; [intros [X _]; discriminate|]. intros [X _]. elim X. reflexivity.
    - split; intros [_ X]; (split; [|exact X]); [|reflexivity]. intros Y. apply N. rewrite <- (chr_byte c), Y. reflexivity. }
  split; intros X c I; apply K; now apply X.
Qed.
Lemma host_in2 scheme h h' pt : host_reads domain ipv6 scheme h h' ->
  read_host domain ipv6 (mem_str scheme special_schemes) (h +:+ tail_of ":" pt) = Some (h', pt).
Proof.
  intros [(ip & a & -> & N & E & ->)|(B & N & K)]; unfold read_host.
  - apply no_char in N. rewrite !sapp_assoc, strip_prefix_app. change ("]" +:+ ?x) with (String "]" x).
    rewrite (proj2 (split_once_some "]" _ ip _) (conj eq_refl N)), E. destruct pt; reflexivity.
  - apply no_char in N. rewrite (split_tail ":" h pt N).
    assert (X : strip_prefix "[" (h +:+ tail_of ":" pt) = None).
    { apply starts_bracket. intros r Z. destruct h as [|c h]; [destruct pt; discriminate|]. cbn [String.append] in Z. injection Z as -> _. now elim (B h). }
    rewrite X. destruct K as [[S D]|[S [C E]]].
    + apply special_iff in S. now rewrite S, D.
    + apply special_false in S. rewrite S. apply opaque_iff in C. rewrite C. apply escaped_controls in E. now rewrite E.
Qed.
Lemma host_out2 scheme hp h' pt : read_host domain ipv6 (mem_str scheme special_schemes) hp = Some (h', pt) ->
  exists h, hp = h +:+ tail_of ":" pt /\ host_reads domain ipv6 scheme h h'.
Proof.
  unfold read_host. destruct (strip_prefix "[" hp) as [r|] eqn:E.
  - apply strip_prefix_some in E. subst hp. destruct (split_once "]" r) as [[ip rest]|] eqn:S; [|discriminate]. apply split_once_some in S as [-> N].
    destruct (ipv6 ip) as [a|] eqn:I; [|discriminate]. intros X. exists ("[" +:+ ip +:+ "]"). split.
    + rewrite !sapp_assoc. f_equal. f_equal. destruct rest as [|c p].
      * injection X as _ <-. reflexivity.
      * destruct (Ascii.eqb_spec c ":") as [->|_]; [|discriminate]. injection X as _ <-. reflexivity.
    + left. exists ip, a. split; [reflexivity|]. split; [now apply no_char|]. split; [exact I|].
      destruct rest as [|c p]; [congruence|]. destruct (Ascii.eqb c ":"); congruence.
  - destruct (split_opt ":" hp) as [h o] eqn:S. apply split_tail_iff in S as [-> N].
    assert (B : forall r, h <> "[" +:+ r) by (intros r ->; rewrite sapp_assoc, strip_prefix_app in E; discriminate).
    destruct (mem_str scheme special_schemes) eqn:M.
    + destruct (domain h) as [d|] eqn:D; [|discriminate]. intros X. injection X as <- <-. exists h. split; [reflexivity|]. right. split; [exact B|]. split; [now apply no_char|].
      left. split; [now apply special_iff|exact D].
    + destruct (str_all _ h) eqn:C; [|discriminate]. intros X. injection X as <- <-. exists h. split; [reflexivity|]. right. split; [exact B|]. split; [now apply no_char|].
      right. split; [now apply special_false|]. split; [now apply opaque_iff|now apply escaped_controls].
Qed.
Lemma authority_reads_iff scheme s t : authority_reads domain ipv6 scheme s t <-> read_authority domain ipv6 scheme (mem_str scheme special_schemes) s = Some t.
Proof.
  split.
  - intros (u & h & p & u' & h' & p' & S & N & Hh & P & -> & Fin). apply no_char in N. apply port_reads_iff in P as (pt & o & -> & R & ->).
    assert (Hr := host_in2 scheme h h' pt Hh). unfold read_authority.
    destruct S as [[-> ->]|[-> U]].
    + rewrite (proj2 (rsplit_once_none "@" _) N), Hr, R.
      replace (String.eqb h' "" && _) with false; [reflexivity|]. symmetry. destruct (String.eqb_spec h' "") as [E|_]; [|reflexivity]. cbn [andb].
      destruct Fin as [F|[F1 F2]]; [contradiction|]. apply special_false in F1. rewrite F1. cbn [orb]. destruct pt as [d|]; [|reflexivity]. destruct h; discriminate.
    + apply user_reads_iff in U. rewrite (proj2 (rsplit_once_some "@" (u +:+ "@" +:+ h +:+ tail_of ":" pt) u (h +:+ tail_of ":" pt)) (conj eq_refl N)), Hr, R, U.
      replace (String.eqb h' "" && _) with false; [reflexivity|]. symmetry. destruct (String.eqb_spec h' "") as [E|_]; [|reflexivity].
      destruct Fin as [F|[F1 F2]]; [contradiction|]. destruct u; discriminate.
  - unfold read_authority. destruct (rsplit_once "@" s) as [[u hp]|] eqn:S.
    + apply rsplit_once_some in S as [-> N]. destruct (read_host _ _ _ hp) as [[h' pt]|] eqn:R; [|discriminate]. apply host_out2 in R as (h & -> & Hh).
      destruct (match pt with Some t0 => read_port scheme t0 | None => Some None end) as [o|] eqn:P; [|discriminate].
      destruct (String.eqb_spec h' "") as [E|E]; [cbn [andb]; rewrite orb_true_r; discriminate|]. intros X. injection X as <-.
      exists u, h, (tail_of ":" pt), (userinfo_text u), h', (port_text o). split; [right; split; [reflexivity|now apply user_reads_iff]|]. split; [now apply no_char|].
      split; [exact Hh|]. split; [apply port_reads_iff; now exists pt, o|]. split; [reflexivity|now left].
    + apply rsplit_once_none in S. destruct (read_host _ _ _ s) as [[h' pt]|] eqn:R; [|discriminate]. apply host_out2 in R as (h & -> & Hh).
      destruct (match pt with Some t0 => read_port scheme t0 | None => Some None end) as [o|] eqn:P; [|discriminate].
      destruct (String.eqb h' "" && _) eqn:E; [discriminate|]. intros X. injection X as <-.
      exists "", h, (tail_of ":" pt), "", h', (port_text o). split; [left; now split|]. split; [now apply no_char|].
      split; [exact Hh|]. split; [apply port_reads_iff; now exists pt, o|]. split; [reflexivity|].
      destruct (String.eqb_spec h' "") as [->|N]; [|now left]. right. cbn [andb] in E. apply orb_false_iff in E as [E1 E2]. apply special_false in E1. split; [exact E1|].
      destruct pt as [d|]; [discriminate|]. cbn [tail_of]. rewrite sapp_nil_r. destruct Hh as [(ip & a & _ & _ & _ & X)|(_ & _ & [[Y _]|[_ [_ X]]])]; [discriminate|contradiction|].
      apply escaped_controls in X. now apply pct_nil in X.
Qed.

(* ------------------------------------------------------------ the whole text *)
Lemma drop_repeat n r : (forall x, r <> "/" +:+ x) -> drop_slashes (string_of_list_ascii (repeat "/"%char n) +:+ r) = r.
Proof.
  intros N. induction n as [|n IH]; cbn [repeat string_of_list_ascii String.append].
  - destruct r as [|c r]; [reflexivity|]. cbn [drop_slashes]. destruct (Ascii.eqb_spec c "/") as [->|_]; [now elim (N r)|reflexivity].
  - cbn [drop_slashes]. exact IH.
Qed.
Lemma drop_spec s : exists n, s = string_of_list_ascii (repeat "/"%char n) +:+ drop_slashes s /\ forall x, drop_slashes s <> "/" +:+ x.
Proof.
  induction s as [|c s (n & E & N)]; [exists 0; split; [reflexivity|discriminate]|]. cbn [drop_slashes]. destruct (Ascii.eqb_spec c "/") as [->|X].
  - exists (S n). split; [cbn [repeat string_of_list_ascii String.append]; now rewrite <- E|exact N].
  - exists 0. split; [reflexivity|]. intros x Y. cbn in Y. injection Y as Y _. contradiction.
Qed.
Lemma starts_slash s : (forall r, s <> "/" +:+ r) <-> starts_with "/" s = false.
Proof.
  split.
  - intros X. destruct (starts_with "/" s) eqn:E; [|reflexivity]. apply starts_with_iff in E as [r ->]. now elim (X r).
  - intros X r ->. discriminate.
Qed.

Definition shape (scheme b : string) (u : url) : Prop :=
  (exists b' n a p a' l, special scheme /\ with_slashes b b' /\ b' = string_of_list_ascii (repeat "/"%char n) +:+ a +:+ p
     /\ (forall r, a +:+ p <> "/" +:+ r) /\ ~ In "/"%char (chars a) /\ authority_reads domain ipv6 scheme a a' /\ path_reads p l
     /\ u_auth u = Some a' /\ u_path u = "/" +:+ join "/" l /\ u_opaque u = false)
  \/ (exists a p a', ~ special scheme /\ b = "//" +:+ a +:+ p
     /\ ~ In "/"%char (chars a) /\ authority_reads domain ipv6 scheme a a'
     /\ (p = "" /\ u_path u = "" \/ p <> "" /\ exists l, path_reads p l /\ u_path u = "/" +:+ join "/" l)
     /\ u_auth u = Some a' /\ u_opaque u = false)
  \/ (exists x l, ~ special scheme /\ b = "/" +:+ x /\ (forall r, x <> "/" +:+ r) /\ path_reads b l
     /\ u_path u = (match l with "" :: _ :: _ => "/./" | _ => "/" end) +:+ join "/" l
     /\ u_auth u = None /\ u_opaque u = false)
  \/ (~ special scheme /\ (forall r, b <> "/" +:+ r) /\ escaped "" b (u_path u)
     /\ u_auth u = None /\ u_opaque u = true).
Lemma url_eta u s a p o q f : u_scheme u = s -> u_auth u = a -> u_path u = p -> u_opaque u = o -> u_query u = q -> u_frag u = f -> u = mk_url s a p o q f.
Proof. destruct u. cbn. intros; subst. reflexivity. Qed.
Lemma body_iff scheme b q f u : body domain ipv6 scheme b q f = Some u <-> u_scheme u = scheme /\ u_query u = q /\ u_frag u = f /\ shape scheme b u.
Proof.
  unfold body. split.
  - destruct (mem_str scheme special_schemes) eqn:M.
    + destruct (break_slash _) as [a p] eqn:B. destruct (read_authority _ _ _ _ a) as [a'|] eqn:A; [|discriminate]. intros X. injection X as <-. cbn [u_scheme u_query u_frag].
      split; [reflexivity|]. split; [reflexivity|]. split; [reflexivity|]. left. rewrite <- M in A. apply authority_reads_iff in A. apply break_out in B as (E & N & P).
      destruct (drop_spec (unbackslash b)) as (n & E2 & N2). rewrite E in E2, N2. exists (unbackslash b), n, a, p, a', (segments p).
      split; [now apply special_iff|]. split; [now apply slashes_iff|]. split; [exact E2|]. split; [exact N2|]. split; [now apply no_char|]. split; [exact A|].
      split; [now apply path_reads_iff|]. now split.
    + assert (Ns := proj1 (special_false scheme) M). destruct (strip_prefix "//" b) as [r|] eqn:S.
      * apply strip_prefix_some in S. subst b. destruct (break_slash r) as [a p] eqn:B. destruct (read_authority _ _ _ _ a) as [a'|] eqn:A; [|discriminate].
        intros X. injection X as <-. cbn [u_scheme u_query u_frag]. split; [reflexivity|]. split; [reflexivity|]. split; [reflexivity|]. right. left.
        rewrite <- M in A. apply authority_reads_iff in A. apply break_out in B as (-> & N & P). exists a, p, a'. split; [exact Ns|]. split; [reflexivity|]. split; [now apply no_char|].
        split; [exact A|]. split; [|now split]. cbn [u_path]. destruct (String.eqb_spec p "") as [->|Np]; [left; now split|]. right. split; [exact Np|].
        exists (segments p). split; [now apply path_reads_iff|reflexivity].
      * destruct (starts_with "/" b) eqn:W.
        -- apply starts_with_iff in W as [x ->]. intros X. injection X as <-. cbn [u_scheme u_query u_frag]. split; [reflexivity|]. split; [reflexivity|]. split; [reflexivity|].
           right. right. left. exists x, (segments ("/" +:+ x)). split; [exact Ns|]. split; [reflexivity|]. split.
           { intros r ->. cbn in S. discriminate. }
           split; [apply path_reads_iff; [right; now exists x|reflexivity]|]. split; [|now split]. cbn [u_path]. unfold path_text.
           change ("/" +:+ x) with (String "/" x).
           destruct (segments (String "/" x)) as [|[|c y] [|z w]]; reflexivity.
        -- intros X. injection X as <-. cbn [u_scheme u_query u_frag]. split; [reflexivity|]. split; [reflexivity|]. split; [reflexivity|].
           right. right. right. split; [exact Ns|]. split; [now apply starts_slash|]. split; [now apply escaped_controls|]. now split.
  - intros (Es & Eq & Ef & [(b' & n & a & p & a' & l & S & Sl & E & N & Na & A & P & Ua & Up & Uo)|[(a & p & a' & S & -> & Na & A & P & Ua & Uo)|[(x & l & S & -> & N & P & Up & Ua & Uo)|(S & N & E & Ua & Uo)]]]).
    + apply special_iff in S. rewrite S. apply slashes_iff in Sl. rewrite Sl, E, (drop_repeat n _ N). assert (Ps := path_reads_start _ _ P). apply (path_reads_iff p l Ps) in P.
      apply no_char in Na. rewrite (break_in a p Na Ps). apply authority_reads_iff in A. rewrite S in A. rewrite A, P. f_equal. symmetry. now apply url_eta.
    + apply special_false in S. rewrite S, strip_prefix_app. apply no_char in Na. apply authority_reads_iff in A. rewrite S in A. destruct P as [[-> Up]|[Np (l & P & Up)]].
      * rewrite sapp_nil_r. assert (B := break_in a "" Na (or_introl eq_refl)). rewrite sapp_nil_r in B. rewrite B, A. f_equal. symmetry. now apply url_eta.
      * assert (Ps := path_reads_start _ _ P). apply (path_reads_iff p l Ps) in P. rewrite (break_in a p Na Ps), A, (eqb_nonempty p Np), P. f_equal. symmetry. now apply url_eta.
    + apply special_false in S. rewrite S. assert (St : strip_prefix "//" ("/" +:+ x) = None).
      { destruct (strip_prefix "//" ("/" +:+ x)) as [r|] eqn:X; [|reflexivity]. apply strip_prefix_some in X. cbn [String.append] in X. injection X as X. now elim (N r). }
      rewrite St. change (starts_with "/" ("/" +:+ x)) with true. cbv iota. apply (path_reads_iff ("/" +:+ x) l) in P; [|right; now exists x]. rewrite P. f_equal. symmetry.
      apply url_eta; auto. rewrite Up. unfold path_text. destruct l as [|[|c y] [|z w]]; reflexivity.
    + apply special_false in S. rewrite S. apply starts_slash in N. rewrite N.
      assert (St : strip_prefix "//" b = None).
      { destruct (strip_prefix "//" b) as [r|] eqn:X; [|reflexivity]. apply strip_prefix_some in X. subst b. discriminate. }
      rewrite St. apply escaped_controls in E. rewrite E. f_equal. symmetry. now apply url_eta.
Qed.
Lemma scheme_ok_iff s : scheme_name (lowered s) <-> scheme_ok s = true /\ lowered s <> "file".
Proof.
  split; [|intros [A B]; now apply scheme_out]. intros [(c & r & E & C & R) F]. split; [|exact F]. destruct s as [|d s]; [discriminate|]. cbn [lowered] in E.
  injection E as E1 E2. unfold scheme_ok.
  assert (K : forall d, lower_alpha (to_lower d) || in_range 48 57 (to_lower d) || has_char (to_lower d) "+-." = true -> scheme_char d = true) by (apply sweep_impl; vm_compute; reflexivity).
  assert (K1 : forall d, lower_alpha (to_lower d) = true -> upper_alpha d || lower_alpha d = true) by (apply sweep_impl; vm_compute; reflexivity).
  assert (C' : lower_alpha (to_lower d) = true) by (rewrite E1; unfold lower_alpha, in_range; unfold small in C; rewrite andb_true_iff, !N.leb_le; exact C).
  rewrite (K1 d C'). cbn [andb str_all]. rewrite (K d) by (now rewrite C'). cbn [andb]. rewrite <- E2 in R. clear - R K.
  induction s as [|e s IH]; [reflexivity|]. cbn [lowered] in R. cbn [str_all]. rewrite (K e), IH; [reflexivity| |].
  - intros x I. apply R. now right.
  - specialize (R (to_lower e) (or_introl eq_refl)). rewrite !orb_true_iff. unfold lower_alpha, in_range. rewrite !andb_true_iff, !N.leb_le. unfold small in R. rewrite in_chars in R. tauto.
Qed.
End Reads.

(** C112: what a text is read as: the text is accepted and read as a URL exactly when the URL standard says so,
    component by component. *)
Lemma c112_reads_pf :
  forall (domain ipv6 : string -> option string) s u, web_parse domain ipv6 s = Some u <-> reads domain ipv6 s u.
Proof.
  intros domain ipv6 s u. rewrite web_parse_body. unfold reads. split.
  - destruct (split_once ":" _) as [[sch r]|] eqn:E; [|discriminate]. apply split_once_some in E as [E N].
    destruct (negb (scheme_ok sch) || String.eqb (lowered sch) "file") eqn:O; [discriminate|]. apply orb_false_iff in O as [O1 O2].
    apply negb_false_iff in O1. apply String.eqb_neq in O2.
    destruct (split_opt "#" r) as [r1 f] eqn:E1. destruct (split_opt "?" r1) as [b q] eqn:E2. apply split_tail_iff in E1 as [E1 N1], E2 as [E2 N2].
    intros B. apply body_iff in B as (Us & Uq & Uf & Sh). exists (drop_tabs (trim_right (trim_left s))), sch, b, q, f.
    split; [now apply stripped_iff|]. split; [rewrite E, E1, E2, !sapp_assoc; reflexivity|]. split; [now apply no_char|]. split; [now apply letters_iff|].
    split; [rewrite Us; now apply scheme_ok_iff|]. split; [now apply no_char|]. split; [apply no_char; now rewrite <- E2|]. split; [|split].
    + rewrite Uq. destruct q as [q|]; cbn [option_map]; [|exact I]. rewrite Us. now apply escaped_query.
    + rewrite Uf. destruct f as [f|]; cbn [option_map]; [|exact I]. now apply escaped_fragment.
    + rewrite Us. exact Sh.
  - intros (t & sch & b & q & f & T & E & N & L & Sn & N2 & N1 & Q & F & Sh). apply stripped_iff in T. apply letters_iff in L. apply no_char in N, N1, N2.
    rewrite T, E. change (sch +:+ ":" +:+ ?x) with (sch +:+ String ":" x). rewrite (proj2 (split_once_some ":" _ sch _) (conj eq_refl N)). rewrite <- L in Sn. apply scheme_ok_iff in Sn as [S1 S2].
    apply String.eqb_neq in S2. rewrite S1, S2. cbn [negb orb]. rewrite <- sapp_assoc, (split_tail "#" _ f N1), (split_tail "?" b q N2). apply body_iff. rewrite L.
    split; [reflexivity|]. split; [|split; [|exact Sh]].
    + destruct q as [q|], (u_query u) as [q'|]; try contradiction; [|reflexivity]. cbn [option_map]. f_equal. symmetry. now apply escaped_query.
    + destruct f as [f|], (u_frag u) as [f'|]; try contradiction; [|reflexivity]. cbn [option_map]. f_equal. symmetry. now apply escaped_fragment.
Qed.
Example c112_reads_ex :
  exists u, reads toy_domain toy_ipv6 " HTTP:\\Me:@V.Example:080\a\..\b c?q'#f g" u /\ url_str u = "http://Me@v.example/b%20c?q%27#f%20g".
Proof.
  exists (mk_url "http" (Some "Me@v.example") "/b%20c" false (Some "q%27") (Some "f%20g")). split; [|reflexivity]. apply c112_reads_pf. vm_compute. reflexivity.
Qed.
