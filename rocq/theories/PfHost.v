(** Proofs about the hosts in URLs. *)
From Coq Require Import Lia ZArith.
From Verif Require Import Base BaseFacts Utf8 Base64Facts JsonText JsonTextFacts UrlEncoded Url WebUrl WebHost SpecWebUrl SpecHttpUri SpecHost PfWebUrl PfWebReads
  HostFacts PfIp.

(* ------------------------------------------------------------ escapes *)
Lemma unescaped_pct s t : unescaped s t -> pct_dec s = t.
Proof.
  induction 1 as [|h l x y s t H L _ IH|c s t N _ IH]; [reflexivity| |].
  - apply unhex_iff in H. apply unhex_iff in L. cbn [pct_dec]. rewrite Ascii.eqb_refl, H, L, IH. reflexivity.
  - cbn [pct_dec]. rewrite IH. destruct (Ascii.eqb_spec c "%") as [->|]; [|reflexivity].
    destruct s as [|h [|l r]]; try reflexivity. destruct (unhex h) as [x|] eqn:X; [|reflexivity]. destruct (unhex l) as [y|] eqn:Y; [|reflexivity].
    apply unhex_iff in X. apply unhex_iff in Y. exfalso. apply N. split; [reflexivity|]. now exists h, l, x, y, r.
Qed.
Lemma pct_unescaped n : forall s, String.length s <= n -> unescaped s (pct_dec s).
Proof.
  induction n as [|n IH]; intros s L; [destruct s; [constructor|cbn in L; lia]|]. destruct s as [|c r]; [constructor|]. cbn in L. cbn [pct_dec].
  assert (R : unescaped r (pct_dec r)) by (apply IH; lia).
  destruct (Ascii.eqb_spec c "%") as [->|N]; [|apply unescaped_char; [intros [X _]; congruence|exact R]].
  destruct r as [|h [|l r]]; try (apply unescaped_char; [intros (_ & h' & l' & x & y & r' & E & _); discriminate|exact R]).
  destruct (unhex h) as [x|] eqn:X.
  - destruct (unhex l) as [y|] eqn:Y.
    + apply unescaped_byte; [now apply unhex_iff|now apply unhex_iff|]. apply IH. cbn in L. lia.
    + apply unescaped_char; [|exact R]. intros (_ & h' & l' & x' & y' & r' & [= <- <- <-] & _ & D). apply unhex_iff in D. congruence.
  - apply unescaped_char; [|exact R]. intros (_ & h' & l' & x' & y' & r' & [= <- <- <-] & D & _). apply unhex_iff in D. congruence.
Qed.
Lemma pct_iff s t : unescaped s t <-> pct_dec s = t.
Proof. split; [apply unescaped_pct|]. intros <-. now apply (pct_unescaped (String.length s)). Qed.
Lemma pct_id s : has_char "%" s = false -> pct_dec s = s.
Proof.
  induction s as [|c s IH]; [reflexivity|]. cbn [has_char]. rewrite orb_false_iff, Ascii.eqb_sym. intros [C H]. cbn [pct_dec]. now rewrite C, IH.
Qed.

(* ------------------------------------------------------------ labels *)
Definition ends_dot (a : string) : Prop := a = "" \/ exists a', a = a' +:+ ".".
Lemma split_before a l : ends_dot a -> exists p, split_all "." (a +:+ l) = p ++ split_all "." l.
Proof.
  intros [->|(a' & ->)]; [now exists []|]. exists (split_all "." a'). rewrite sapp_assoc. apply (split_app "." a' l).
Qed.
Lemma before_split p (q : list string) : q <> [] -> exists a, ends_dot a /\ join "." (p ++ q) = a +:+ join "." q.
Proof.
  intros Q. destruct p as [|x p]; [exists ""; split; [now left|reflexivity]|]. exists (join "." (x :: p) +:+ "."). split; [right; eauto|].
  rewrite join_app by (exact Q || discriminate). now rewrite sapp_assoc.
Qed.
Lemma label_iff l s : label l s <-> In l (split_all "." s).
Proof.
  split.
  - intros (a & b & A & B & -> & N). apply no_char in N. destruct (split_before a (l +:+ b) A) as (p & ->). apply in_or_app. right.
    destruct B as [->|(b' & ->)].
    + rewrite sapp_nil_r, split_none by exact N. now left.
    + change ("." +:+ b') with (String "." b'). rewrite split_app, split_none by exact N. now left.
  - intros I. pose proof (split_all_no _ _ _ I) as N. apply in_split in I as (p & q & E). pose proof (join_split "." s) as J.
    change (s1 ".") with "." in J. rewrite E in J. destruct (before_split p (l :: q)) as (a & A & Ja); [discriminate|]. rewrite Ja in J.
    destruct q as [|x q].
    + exists a, "". split; [exact A|]. split; [now left|]. split; [now rewrite sapp_nil_r|]. now apply no_char.
    + rewrite join_cons in J. exists a, ("." +:+ join "." (x :: q)). split; [exact A|]. split; [right; eauto|]. split; [now symmetry|]. now apply no_char.
Qed.
Lemma lower_dot c : Ascii.eqb "." (to_lower c) = Ascii.eqb "." c.
Proof. revert c. apply sweep. vm_compute. reflexivity. Qed.
Lemma split_lowered s : split_all "." (lowered s) = map lowered (split_all "." s).
Proof.
  induction s as [|c s IH]; [reflexivity|]. change (lowered (String c s)) with (String (to_lower c) (lowered s)). cbn [split_all].
  rewrite lower_dot, IH. destruct (Ascii.eqb "." c); [reflexivity|]. destruct (split_all "." s); reflexivity.
Qed.
Lemma plain_iff s : ascii_only s && negb (has_ace s) = true <-> plain_name s.
Proof.
  unfold plain_name, ascii_only, has_ace. rewrite andb_true_iff, negb_true_iff, str_all_chars. split.
  - intros [A B]. split; [intros c I; apply N.ltb_lt, A, I|]. intros (l & x & r & L & E & ->). apply label_iff in L. apply letters_iff in E.
    assert (existsb (starts_with "xn--") (split_all "." (lowered s)) = true); [|congruence]. apply existsb_exists. exists (lowered l). split.
    + rewrite split_lowered. now apply in_map.
    + apply starts_with_iff. now exists r.
  - intros [A B]. split; [intros c I; apply N.ltb_lt, A, I|]. apply not_true_is_false. intros H. apply existsb_exists in H as (x & I & S). apply B.
    rewrite split_lowered in I. apply in_map_iff in I as (l & <- & I). apply starts_with_iff in S as (r & E). exists l, (lowered l), r.
    split; [now apply label_iff|]. split; [now apply letters_iff|exact E].
Qed.
Lemma lower_ascii c : (byte c <? 128)%N = (byte (to_lower c) <? 128)%N.
Proof. revert c. apply sweep. vm_compute. reflexivity. Qed.
Lemma lower_twice_sweep : forallb (fun c => Ascii.eqb (to_lower (to_lower c)) (to_lower c)) all_ascii = true.
Proof. vm_compute. reflexivity. Qed.
Lemma lower_twice c : to_lower (to_lower c) = to_lower c.
Proof. apply Ascii.eqb_eq. exact (proj1 (forallb_forall _ _) lower_twice_sweep c (all_ascii_in c)). Qed.
Lemma lowered_twice s : lowered (lowered s) = lowered s.
Proof. induction s as [|c s IH]; [reflexivity|]. change (lowered (lowered (String c s))) with (String (to_lower (to_lower c)) (lowered (lowered s))). now rewrite lower_twice, IH. Qed.
Lemma lowered_ascii s : ascii_only (lowered s) = ascii_only s.
Proof.
  unfold ascii_only. induction s as [|c s IH]; [reflexivity|]. change (lowered (String c s)) with (String (to_lower c) (lowered s)). cbn [str_all].
  now rewrite <- lower_ascii, IH.
Qed.
Lemma not_forbidden c : (byte c <? 128)%N && negb (forbidden_domain c) = cl " %#/:<>?@[\]^|" c.
Proof. revert c. apply sweep. vm_compute. reflexivity. Qed.
Lemma allowed_iff s : ascii_only s = true -> str_all (fun c => negb (forbidden_domain c)) s = true <-> allowed s.
Proof.
  unfold allowed. rewrite clean_iff. induction s as [|c s IH]; [reflexivity|]. unfold ascii_only. cbn [str_all]. intros H. apply andb_true_iff in H as [C H].
  rewrite <- not_forbidden, C. cbn [andb]. rewrite !andb_true_iff. now rewrite IH.
Qed.
Lemma to_ascii_iff idna x d : to_ascii idna x = Some d <->
  plain_name x /\ in_small_letters x d /\ allowed d \/ ~ plain_name x /\ idna x = Some d.
Proof.
  unfold to_ascii. rewrite <- plain_iff, letters_iff. destruct (ascii_only x && negb (has_ace x)) eqn:P.
  - apply andb_true_iff in P as [A _]. rewrite <- lowered_ascii in A. split.
    + destruct (str_all _ (lowered x)) eqn:S; [|discriminate]. intros [= <-]. left. split; [reflexivity|]. split; [reflexivity|]. now apply allowed_iff.
    + intros [(_ & <- & D)|[N _]]; [|congruence]. apply allowed_iff in D; [|exact A]. now rewrite D.
  - split; [intros H; right; split; [discriminate|exact H]|]. intros [[H _]|[_ H]]; [discriminate|exact H].
Qed.
Lemma named_iff idna s d : to_ascii idna (pct_dec s) = Some d <-> named_by idna s d.
Proof.
  unfold named_by. rewrite to_ascii_iff. split.
  - intros H. exists (pct_dec s). split; [now apply pct_iff|exact H].
  - intros (x & U & H). apply pct_iff in U. now subst x.
Qed.

(* ------------------------------------------------------------ IPv4 *)
Definition part_val (s : string) : option N :=
  match s with
  | EmptyString => None
  | _ =>
      let (radix, t) := match s with
                        | String c (String d r) =>
                            if Ascii.eqb c "0" then if Ascii.eqb d "x" || Ascii.eqb d "X" then (16%N, r) else (8%N, String d r)
                            else (10%N, s)
                        | _ => (10%N, s)
                        end in radix_val radix 0 t
  end.
Lemma ipv4_number_eq s : ipv4_number s = option_map (fun v => if (v <? 4294967296)%N then Some v else None) (part_val s).
Proof.
  unfold ipv4_number, part_val. destruct s as [|c s]; [reflexivity|]. destruct (match s with EmptyString => _ | String d r => _ end) as [radix t].
  destruct (radix_val radix 0 t); reflexivity.
Qed.
Lemma number_head r c s v : number r (String c s) v -> exists d, digit c d /\ (d < r)%N.
Proof. intros H. apply (number_chars r _ v c H). now left. Qed.
Lemma x_not_digit c d : digit c d -> c <> "x"%char /\ c <> "X"%char.
Proof. unfold digit. intros D. split; intros ->; cbn in D; lia. Qed.
Lemma part_iff s v : part_val s = Some v <-> part s v.
Proof.
  unfold part_val, part. destruct s as [|c s].
  { split; [discriminate|]. intros [(h & [E|E] & _)|[(o & E & _)|(N & _)]]; try discriminate. congruence. }
  destruct s as [|d r].
  - rewrite radix_iff. split.
    + intros H. right. right. split; [discriminate|]. split; [exact H|]. intros r [= _ <-]. reflexivity.
    + intros [(h & [E|E] & _)|[(o & E & N & _)|(_ & H & _)]]; try discriminate; [|exact H]. cbn in E. injection E as _ E. congruence.
  - destruct (Ascii.eqb_spec c "0") as [->|Nc].
    + destruct (Ascii.eqb d "x" || Ascii.eqb d "X") eqn:X; rewrite radix_iff.
      * split.
        -- intros H. left. exists r. split; [|exact H]. apply orb_true_iff in X as [X|X]; apply Ascii.eqb_eq in X; subst d; auto.
        -- intros [(h & [E|E] & H)|[(o & E & _ & H)|(_ & H & Z)]].
           ++ injection E as _ ->. exact H.
           ++ injection E as _ ->. exact H.
           ++ injection E as <-. apply number_head in H as (x & D & _). apply x_not_digit in D as [D1 D2].
              apply orb_true_iff in X as [X|X]; apply Ascii.eqb_eq in X; congruence.
           ++ specialize (Z (String d r) eq_refl). discriminate.
      * apply orb_false_iff in X as [X1 X2]. apply Ascii.eqb_neq in X1. apply Ascii.eqb_neq in X2. split.
        -- intros H. right. left. exists (String d r). split; [reflexivity|]. split; [discriminate|exact H].
        -- intros [(h & [E|E] & H)|[(o & E & _ & H)|(_ & H & Z)]].
           ++ injection E as -> _. congruence.
           ++ injection E as -> _. congruence.
           ++ injection E as <-. exact H.
           ++ specialize (Z (String d r) eq_refl). discriminate.
    + rewrite radix_iff. split.
      * intros H. right. right. split; [discriminate|]. split; [exact H|]. intros q [= E _]. congruence.
      * intros [(h & [E|E] & H)|[(o & E & _ & H)|(_ & H & Z)]]; try (injection E; congruence). exact H.
Qed.
Lemma number_iff s v : (v < 4294967296)%N -> ipv4_number s = Some (Some v) <-> part s v.
Proof.
  intros B. rewrite ipv4_number_eq, <- part_iff. destruct (part_val s) as [w|]; cbn [option_map]; [|split; discriminate]. split.
  - destruct (w <? 4294967296)%N; [|discriminate]. congruence.
  - intros [= ->]. now rewrite (proj2 (N.ltb_lt _ _) B).
Qed.
Lemma number_small s v : ipv4_number s = Some (Some v) -> (v < 4294967296)%N /\ part s v.
Proof.
  intros H. assert (B : (v < 4294967296)%N).
  { rewrite ipv4_number_eq in H. destruct (part_val s) as [w|]; [|discriminate]. cbn [option_map] in H.
    destruct (N.ltb_spec w 4294967296); [|discriminate]. congruence. }
  split; [exact B|]. now apply number_iff.
Qed.
Lemma number_no_dot r s v : number r s v -> has_char "." s = false.
Proof. intros H. apply no_char. intros I. apply (number_chars r s v _ H) in I as (d & D & _). unfold digit in D. cbn in D. lia. Qed.
Lemma part_no_dot s v : part s v -> has_char "." s = false /\ s <> "".
Proof.
  intros [(h & [->| ->] & H)|[(o & -> & _ & H)|(N & H & _)]]; apply number_no_dot in H; cbn; auto; split; (exact H || discriminate).
Qed.

Lemma is_digits_iff s : nonempty_digits s = true <-> s <> "" /\ forall c, In c (chars s) -> (48 <= byte c <= 57)%N.
Proof.
  assert (D : forall c, is_digit c = true <-> (48 <= byte c <= 57)%N).
  { intros c. unfold is_digit, in_range. rewrite andb_true_iff, !N.leb_le. reflexivity. }
  unfold nonempty_digits. destruct s as [|c s]; [split; [discriminate|intros [N _]; congruence]|]. rewrite str_all_chars. split.
  - intros H. split; [discriminate|]. intros d I. now apply D, H.
  - intros [_ H] d I. now apply D, H.
Qed.
Lemma number_label_iff l : number_label l = true <->
  l <> "" /\ (forall c, In c (chars l) -> (48 <= byte c <= 57)%N) \/ exists h n, (l = "0x" +:+ h \/ l = "0X" +:+ h) /\ number 16 h n.
Proof.
  unfold number_label. rewrite orb_true_iff, is_digits_iff, ipv4_number_eq. split.
  - intros [H|H]; [now left|]. destruct (part_val l) as [v|] eqn:P; [|discriminate]. apply part_iff in P as [(h & E & H')|[(o & -> & N & H')|(N & H' & _)]].
    + right. eauto.
    + left. split; [discriminate|]. intros c [<-|I]; [cbn; lia|]. apply (number_chars _ _ _ c H') in I as (d & D & L). unfold digit in D. lia.
    + left. split; [exact N|]. intros c I. apply (number_chars _ _ _ c H') in I as (d & D & L). unfold digit in D. lia.
  - intros [H|(h & n & E & H)]; [now left|]. right. assert (P : part l n) by (left; eauto). apply part_iff in P. now rewrite P.
Qed.
Lemma label_nonempty l : number_label l = true -> l <> "".
Proof. intros H ->. discriminate. Qed.
Lemma numeric_iff s : ends_in_number s = true <-> numeric s.
Proof.
  unfold ends_in_number, numeric. setoid_rewrite <- number_label_iff. pose proof (join_split "." s) as J. change (s1 ".") with "." in J.
  pose proof (split_all_no "." s) as No. split.
  - destruct (rev (split_all "." s)) as [|x p] eqn:R; [discriminate|]. apply (f_equal (@rev string)) in R. rewrite rev_involutive in R. cbn [rev] in R.
    destruct x as [|c x].
    + destruct p as [|l p]; [discriminate|]. intros H. cbn [rev] in R. rewrite R in J, No. rewrite <- app_assoc in J. cbn [app] in J.
      destruct (before_split (rev p) [l; ""]) as (a & A & E); [discriminate|]. exists a, l. split; [exact A|]. split.
      * right. rewrite <- J, E. f_equal.
      * split; [|exact H]. apply no_char, No. apply in_or_app. left. apply in_or_app. right. now left.
    + intros H. rewrite R in J, No. destruct (before_split (rev p) [String c x]) as (a & A & E); [discriminate|]. exists a, (String c x).
      split; [exact A|]. split; [left; rewrite <- J, E; reflexivity|]. split; [|exact H]. apply no_char, No. apply in_or_app. right. now left.
  - intros (a & l & A & E & N & H). apply no_char in N. pose proof (label_nonempty l H) as Nl. destruct E as [->| ->].
    + destruct (split_before a l A) as (p & ->). rewrite split_none, rev_app_distr by exact N. cbn [rev app]. destruct l; [congruence|exact H].
    + destruct (split_before a (l +:+ ".") A) as (p & ->). rewrite (split_app "." l ""), split_none by exact N. cbn [split_all].
      rewrite rev_app_distr. cbn [rev app]. exact H.
Qed.

Lemma numbers_iff l ns : numbers l = Some ns <-> Forall2 part l ns /\ Forall (fun n => (n < 4294967296)%N) ns.
Proof.
  revert ns. induction l as [|s l IH]; intros ns; cbn [numbers].
  - split; [intros [= <-]; split; constructor|]. intros [H _]. now inversion H.
  - split.
    + destruct (ipv4_number s) as [[n|]|] eqn:E; try discriminate. destruct (numbers l) as [ms|]; [|discriminate]. intros [= <-].
      apply number_small in E as [B P]. destruct (proj1 (IH ms) eq_refl). split; constructor; assumption.
    + intros [H B]. inversion H as [|s' n l' ms P F]; subst. inversion B as [|n' ms' Bn Bm]; subst. rewrite (proj2 (number_iff s n Bn) P).
      now rewrite (proj2 (IH ms) (conj F Bm)).
Qed.
Lemma Forall2_length {A B} (R : A -> B -> Prop) l m : Forall2 R l m -> length l = length m.
Proof. induction 1; cbn; congruence. Qed.
Lemma parts_join texts ns : Forall2 part texts ns -> texts <> [] ->
  ipv4_parts (join "." texts) = texts /\ ipv4_parts (join "." texts +:+ ".") = texts.
Proof.
  intros F N. assert (D : forall s, In s texts -> has_char "." s = false /\ s <> "").
  { intros s I. clear N. induction F as [|t n texts ns P F IH]; [destruct I|]. destruct I as [<-|I]; [now apply part_no_dot in P|auto]. }
  assert (S : split_all "." (join "." texts) = texts) by (apply (split_join "." texts N); intros s I; now apply D).
  unfold ipv4_parts. split.
  - rewrite S. destruct (rev texts) as [|x p] eqn:R.
    { apply (f_equal (@rev string)) in R. rewrite rev_involutive in R. now rewrite <- R. }
    assert (In x texts) by (apply in_rev; rewrite R; now left). destruct (D x H) as [_ Nx].
    destruct x; [congruence|]. rewrite <- R. apply rev_involutive.
  - rewrite (split_app "." (join "." texts) ""), S. rewrite rev_app_distr. cbn.
    apply rev_involutive.
Qed.
Lemma parts_text s : ipv4_parts s <> [] -> s = join "." (ipv4_parts s) \/ s = join "." (ipv4_parts s) +:+ ".".
Proof.
  unfold ipv4_parts. pose proof (join_split "." s) as J. change (s1 ".") with "." in J.
  destruct (rev (split_all "." s)) as [|x p] eqn:R; [intros N; now destruct N|]. apply (f_equal (@rev string)) in R. rewrite rev_involutive in R.
  destruct x as [|c x].
  - intros N. right. cbn [rev] in R. rewrite R in J. rewrite <- J. apply join_app; [exact N|discriminate].
  - intros _. left. rewrite <- R. now rewrite J.
Qed.
Lemma shifted_fold before : length before <= 3 ->
  shifted 3 before = (fold_left N.add (map (fun i => nth i before 0 * 256 ^ (3 - N.of_nat i)) (seq 0 (length before))) 0)%N.
Proof.
  intros L. destruct before as [|a [|b [|c [|]]]]; cbn in L; try lia; cbn [length seq map nth fold_left shifted];
    repeat match goal with |- context [(256 ^ ?e)%N] => let v := eval vm_compute in (256 ^ e)%N in change (256 ^ e)%N with v end; lia.
Qed.
Lemma address4_iff s n : ipv4_addr s = Some n <-> address4 s n.
Proof.
  unfold ipv4_addr, address4. cbv zeta. split.
  - destruct (Nat.ltb_spec 4 (length (ipv4_parts s))) as [|L]; [discriminate|]. destruct (numbers (ipv4_parts s)) as [l|] eqn:E; [|discriminate].
    destruct (rev l) as [|z q] eqn:R; [discriminate|]. apply (f_equal (@rev N)) in R. rewrite rev_involutive in R. cbn [rev] in R.
    apply numbers_iff in E as [F _]. pose proof (Forall2_length _ _ _ F) as Le. rewrite R, app_length in Le. cbn in Le.
    destruct ((z <? _)%N && _) eqn:C; [|discriminate]. apply andb_true_iff in C as [C1 C2]. apply N.ltb_lt in C1. intros [= <-].
    exists (ipv4_parts s), (rev q), z. split; [apply parts_text; intros X; rewrite X in Le; cbn in Le; lia|]. split; [now rewrite <- R|].
    split; [lia|]. split; [|split; [exact C1|now rewrite shifted_fold by lia]].
    intros x I. apply N.leb_le. exact (proj1 (forallb_forall _ _) C2 x I).
  - intros (texts & before & z & E & F & L & B & Z & ->). pose proof (Forall2_length _ _ _ F) as Le. rewrite app_length in Le. cbn in Le.
    destruct (parts_join texts (before ++ [z]) F) as [P1 P2]; [intros ->; cbn in Le; lia|].
    assert (P : ipv4_parts s = texts) by (destruct E as [->| ->]; assumption). rewrite P. destruct (Nat.ltb_spec 4 (length texts)); [lia|].
    rewrite (proj2 (numbers_iff texts (before ++ [z]))).
    + rewrite rev_app_distr. cbn [rev app]. rewrite rev_involutive, (proj2 (N.ltb_lt _ _) Z). cbn [andb].
      replace (forallb (fun n => (n <=? 255)%N) before) with true; [now rewrite shifted_fold|]. symmetry. apply forallb_forall. intros x I. now apply N.leb_le, B.
    + split; [exact F|]. apply Forall_app. split; [apply Forall_forall; intros x I; specialize (B x I); lia|]. constructor; [|constructor].
      eapply N.lt_le_trans; [exact Z|]. change 4294967296%N with (256 ^ 4)%N. apply N.pow_le_mono_r; lia.
Qed.
Lemma address4_bound s n : address4 s n -> (n < 4294967296)%N.
Proof.
  intros (texts & before & z & _ & _ & L & B & Z & ->).
  destruct before as [|a [|b [|c [|]]]]; cbn in L; try lia; cbn [length seq map nth fold_left] in Z |- *;
    repeat match type of Z with context [(256 ^ ?e)%N] => let v := eval vm_compute in (256 ^ e)%N in change (256 ^ e)%N with v in Z end;
    repeat match goal with |- context [(256 ^ ?e)%N] => let v := eval vm_compute in (256 ^ e)%N in change (256 ^ e)%N with v end;
    try (pose proof (B a (or_introl eq_refl))); try (pose proof (B b (or_intror (or_introl eq_refl))));
    try (pose proof (B c (or_intror (or_intror (or_introl eq_refl))))); lia.
Qed.
Lemma printed4_iff n t : (n < 4294967296)%N -> printed4 n t <-> t = print_ipv4 n.
Proof.
  intros B. unfold print_ipv4. split.
  - intros (a & b & c & d & (A & B' & C & D) & -> & ->). do 2 f_equal. f_equal; [|f_equal; [|f_equal; [|f_equal]]]; zify; Z.to_euclidean_division_equations; lia.
  - intros ->. exists (n / 16777216)%N, (n / 65536 mod 256)%N, (n / 256 mod 256)%N, (n mod 256)%N. split; [|split; [|reflexivity]].
    + repeat split; zify; Z.to_euclidean_division_equations; lia.
    + zify. Z.to_euclidean_division_equations. lia.
Qed.

(* ------------------------------------------------------------ theorems *)
(** C115: the name of a host in a web URL: escapes are decoded and letters made small; what ends in a number is an IPv4
    address, written in any of its forms and printed with four numbers, or refused; every other name that has no forbidden
    character is taken as it is. *)
Lemma c115_domain_pf :
  forall idna s t, web_domain idna s = Some t <->
    exists d, named_by idna s d /\ d <> ""
      /\ (numeric d /\ (exists n, address4 d n /\ printed4 n t) \/ ~ numeric d /\ t = d).
Proof.
  intros idna s t. unfold web_domain. split.
  - destruct (to_ascii idna (pct_dec s)) as [d|] eqn:E; [|discriminate]. apply named_iff in E. destruct (String.eqb_spec d "") as [|N]; [discriminate|].
    intros H. exists d. split; [exact E|]. split; [exact N|]. destruct (ends_in_number d) eqn:En.
    + left. split; [now apply numeric_iff|]. destruct (ipv4_addr d) as [n|] eqn:A; [|discriminate]. injection H as <-. apply address4_iff in A.
      exists n. split; [exact A|]. apply printed4_iff; [now apply address4_bound in A|reflexivity].
    + right. split; [|congruence]. rewrite <- numeric_iff, En. discriminate.
  - intros (d & E & N & H). apply named_iff in E. rewrite E. rewrite (proj2 (String.eqb_neq _ _) N). destruct H as [(En & n & A & P)|[En ->]].
    + apply numeric_iff in En. rewrite En. pose proof (address4_bound _ _ A) as B. apply address4_iff in A. rewrite A. cbn. f_equal. symmetry.
      now apply printed4_iff.
    + rewrite <- numeric_iff in En. destruct (ends_in_number d); [now destruct En|reflexivity].
Qed.
Definition no_idna (s : string) : option string := None.
Example c115_domain_ex :
  map (web_domain no_idna) ["V.Example"; "v%2Eexample"; "a_b.example."; "0x7f.1"; "127.0.0.1."; "017700000001"; "4294967295"; "a%b"; "1.2.3.4.a"]
    = [Some "v.example"; Some "v.example"; Some "a_b.example."; Some "127.0.0.1"; Some "127.0.0.1"; Some "127.0.0.1"; Some "255.255.255.255"; None; Some "1.2.3.4.a"]
  /\ map (web_domain no_idna) [""; "a b"; "a%2Fb"; "256.1.1.1"; "1.2.3.4.5"; "4294967296"; "a.1"; "1..2"; "09"; "0xg"; "a%00"] 
    = [None; None; None; None; None; None; None; None; None; Some "0xg"; None].
Proof. vm_compute. split; reflexivity. Qed.

Lemma ascii_clean ex s : clean ex s -> forall c, In c (chars s) -> (byte c < 128)%N.
Proof. intros H c I. apply H in I as [I _]. lia. Qed.
Lemma allowed_escape s : allowed s -> pct_dec s = s.
Proof. intros A. apply pct_id, no_char. intros I. apply A in I as [_ I]. apply I. cbn. auto. Qed.
Lemma lowered_self s : (forall c, In c (chars s) -> ~ (65 <= byte c <= 90)%N) -> lowered s = s.
Proof.
  intros H. apply letters_iff. unfold in_small_letters. unfold chars in *. induction (list_ascii_of_string s) as [|c l IH]; [constructor|]. constructor.
  - right. split; [apply H; now left|reflexivity].
  - apply IH. intros d I. apply H. now right.
Qed.
Lemma named_small idna s d : idna_ok idna -> named_by idna s d -> allowed d /\ named_by idna d d /\ forall c, In c (chars d) -> ~ (65 <= byte c <= 90)%N.
Proof.
  intros Ok (x & U & [(P & L & A)|(P & E)]).
  - apply letters_iff in L. subst d. split; [exact A|].
    assert (S : forall c, In c (chars (lowered x)) -> ~ (65 <= byte c <= 90)%N).
    { intros c I [C1 C2]. pose proof (proj2 (letters_iff (lowered x) (lowered x)) (lowered_twice x)) as F. unfold in_small_letters in F.
      clear -I C1 C2 F. induction (chars (lowered x)) as [|d l IH]; [destruct I|]. inversion F as [|? ? ? ? R F']; subst. destruct I as [->|I]; [|auto].
      destruct R as [[_ R]|[R _]]; [lia|]. apply R. lia. }
    split; [|exact S]. exists (lowered x). split; [apply pct_iff; now apply allowed_escape|]. left.
    split; [|split; [now apply letters_iff, lowered_self|exact A]]. apply plain_iff. apply plain_iff in P. unfold has_ace in *. now rewrite lowered_ascii, lowered_twice.
  - destruct (Ok x d E) as (A & S & H). split; [exact A|]. split; [|exact S]. exists d. split; [apply pct_iff; now apply allowed_escape|].
    pose proof (plain_iff d) as D. destruct (ascii_only d && negb (has_ace d)).
    + left. split; [now apply D|]. split; [now apply letters_iff, lowered_self|exact A].
    + right. assert (Np : ~ plain_name d) by (intros X; apply D in X; discriminate). split; [exact Np|]. destruct H as [H|H]; [now destruct Np|exact H].
Qed.
Lemma quad_address a b c d : (a <= 255 /\ b <= 255 /\ c <= 255 /\ d <= 255)%N ->
  address4 (join "." (map dec_N [a; b; c; d])) (((a * 256 + b) * 256 + c) * 256 + d) /\ numeric (join "." (map dec_N [a; b; c; d])).
Proof.
  intros (A & B & C & D). assert (P : forall n, part (dec_N n) n).
  { intros n. right. right. destruct (dec_canonical n) as [H (N & _ & Z)]. split; [exact N|]. split; [exact H|].
    intros r E. destruct r as [|x r]; [reflexivity|]. now destruct (Z x r). }
  split.
  - exists (map dec_N [a; b; c; d]), [a; b; c], d. split; [now left|]. split; [cbn [map app]; repeat (apply Forall2_cons; [apply P|]); apply Forall2_nil|]. split; [cbn; lia|].
    split; [intros x [<-|[<-|[<-|[]]]]; assumption|]. split; [cbn; lia|]. cbn [length seq map nth fold_left].
    repeat match goal with |- context [(256 ^ ?e)%N] => let v := eval vm_compute in (256 ^ e)%N in change (256 ^ e)%N with v end. lia.
  - exists (join "." (map dec_N [a; b; c]) +:+ "."), (dec_N d). split; [right; eauto|]. split; [left|].
    { change (map dec_N [a; b; c; d]) with (map dec_N [a; b; c] ++ [dec_N d]). rewrite join_app by discriminate. now rewrite sapp_assoc. }
    split; [apply no_char, dec_no_dot|]. left. destruct (dec_canonical d) as [H (N & _)]. split; [exact N|].
    intros x I. apply (number_chars _ _ _ x H) in I as (y & Y & L). unfold digit in Y. lia.
Qed.
Lemma join_dot_chars l c : In c (chars (join "." (map dec_N l))) -> c = "."%char \/ (48 <= byte c <= 57)%N.
Proof.
  assert (D : forall n, In c (chars (dec_N n)) -> (48 <= byte c <= 57)%N).
  { intros n I. destruct (dec_canonical n) as [H _]. apply (number_chars _ _ _ c H) in I as (y & Y & L). unfold digit in Y. lia. }
  induction l as [|n l IH]; [intros []|]. destruct l as [|m l]; [intros I; right; exact (D n I)|]. cbn [map]. rewrite join_cons, !chars_app, !in_app_iff.
  intros [I|[[<-|[]]|I]]; [right; exact (D n I)|now left|exact (IH I)].
Qed.
Lemma label_chars l s c : label l s -> In c (chars l) -> In c (chars s).
Proof. intros (a & b & _ & _ & -> & _) I. rewrite !chars_app, !in_app_iff. auto. Qed.
Lemma quad_name idna n t : printed4 n t -> named_by idna t t /\ t <> "" /\ numeric t /\ address4 t n /\ allowed t.
Proof.
  intros (a & b & c & d & B & -> & ->). destruct (quad_address a b c d B) as [A N]. set (t := join "." (map dec_N [a; b; c; d])) in *.
  assert (C : forall x, In x (chars t) -> x = "."%char \/ (48 <= byte x <= 57)%N) by (intros x; apply join_dot_chars). clearbody t.
  assert (Al : allowed t).
  { intros x I. apply C in I as [->|I]; [cbn; split; [lia|]|split; [lia|]].
    - intros X. cbn in X. repeat (destruct X as [X|X]; [discriminate|]). exact X.
    - cbn. intros X. repeat (destruct X as [<-|X]; [cbn in I; lia|]). exact X. }
  split; [|split; [|auto]].
  - exists t. split; [apply pct_iff; now apply allowed_escape|]. left. split; [split|split; [|exact Al]].
    + intros x I. apply C in I as [->|I]; [cbn|]; lia.
    + intros (l & x & r & L & S & ->). apply letters_iff in S. destruct l as [|y l]; [discriminate|]. assert (I : In y (chars t)).
      { apply (label_chars (String y l) t); [exact L|now left]. }
      assert (X : to_lower y = "x"%char) by (injection S; auto). apply C in I as [->|I]; [discriminate|].
      assert (to_lower y = y). { unfold to_lower, upper_alpha, in_range. destruct (N.leb_spec 65 (byte y)); [lia|reflexivity]. }
      rewrite H in X. subst y. cbn in I. lia.
    + apply letters_iff, lowered_self. intros x I. apply C in I as [->|I]; [cbn|]; lia.
  - intros ->. destruct N as (a' & l & _ & [E|E] & _ & [[N _]|(h & m & [H|H] & _)]); destruct a'; try discriminate; cbn in E; try (destruct l; discriminate); subst; congruence.
Qed.
(** C115: these readers keep the contract that the theorems about URLs (C112 to C114) ask of host readers: what they give is
    read as itself and has no character that would end the host. *)
Lemma c115_hosts_pf :
  forall idna, idna_ok idna -> hosts_ok (web_domain idna) web_ipv6 /\ eight_groups web_ipv6.
Proof.
  intros idna Ok. destruct ipv6_ok as [V6 V8]. split; [split; [|exact V6]|exact V8]. intros s t W.
  assert (Out : forall t, allowed t -> clean " #/:<>?@[\]^|%" t).
  { intros x A c I. apply A in I as [I J]. split; [exact I|]. intros K. apply J. cbn in K |- *. tauto. }
  apply c115_domain_pf in W as (d & Nd & Ne & [(Nu & n & A & P)|[Nu ->]]).
  - destruct (quad_name idna n t P) as (Nt & Net & Nut & At & Al). split; [|split; [exact Net|now apply Out]]. apply c115_domain_pf.
    exists t. split; [exact Nt|]. split; [exact Net|]. left. split; [exact Nut|]. eauto.
  - destruct (named_small idna s d Ok Nd) as (A & Ns & _). split; [|split; [exact Ne|now apply Out]]. apply c115_domain_pf. exists d. auto.
Qed.
Lemma no_idna_ok : idna_ok no_idna.
Proof. intros s d [=]. Qed.
Example c115_hosts_ex : idna_ok no_idna /\ idna_ok (fun s => if String.eqb s "XN--BCHER-KVA" then Some "xn--bcher-kva" else if String.eqb s "xn--bcher-kva" then Some s else None).
Proof.
  split; [exact no_idna_ok|]. assert (H : forall d, d = "xn--bcher-kva" -> allowed d /\ forall c, In c (chars d) -> ~ (65 <= byte c <= 90)%N).
  { intros d ->. split.
    - apply clean_iff. vm_compute. reflexivity.
    - intros c I [C1 C2]. assert (X : str_all (fun c => negb ((65 <=? byte c)%N && (byte c <=? 90)%N)) "xn--bcher-kva" = true) by (vm_compute; reflexivity).
      pose proof (proj1 (str_all_chars _ _) X c I) as Y. cbn beta in Y. apply N.leb_le in C1. apply N.leb_le in C2. now rewrite C1, C2 in Y. }
  intros s d. cbv beta. destruct (String.eqb_spec s "XN--BCHER-KVA") as [->|N].
  - intros [= <-]. destruct (H _ eq_refl) as [A B]. split; [exact A|]. split; [exact B|]. right. reflexivity.
  - destruct (String.eqb_spec s "xn--bcher-kva") as [->|]; [|discriminate]. intros [= <-]. destruct (H _ eq_refl) as [A B]. auto.
Qed.
