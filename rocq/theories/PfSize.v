From Coq Require Import Lia.
From Verif Require Import Base BaseFacts Utf8 Json JsonFacts JsonText JsonTextFacts Base64 Serde Url UrlEncoded UrlEncodedFacts Object Params Dcql Formats Effects Jwt Request Response
  ExMatcher ExWallet SpecRequest PfRequest PfResolve SpecResponse Base64Facts PfEncodings SpecExample PfExample PfWritten SpecSize.

(* ------------------------------------------------------------ sums *)
Lemma sum_app a b : sum (a ++ b) = sum a + sum b.
Proof. induction a as [|n a IH]; cbn [app sum]; [reflexivity|]. rewrite IH. lia. Qed.
Lemma sum_le {A} (f g : A -> nat) l : (forall x, In x l -> f x <= g x) -> sum (map f l) <= sum (map g l).
Proof.
  induction l as [|x l IH]; intros H; cbn [map sum]; [lia|]. pose proof (H x (or_introl eq_refl)). specialize (IH (fun y I => H y (or_intror I))). lia.
Qed.

(* ------------------------------------------------------------ reading JSON *)
Lemma skip_len s : String.length (skip_ws s) <= String.length s.
Proof. induction s as [|c s IH]; cbn [skip_ws]; [lia|]. destruct (is_ws c); cbn [String.length] in *; lia. Qed.
Lemma strip_len p : forall s q, strip_prefix p s = Some q -> String.length s = String.length p + String.length q.
Proof. intros s q H. apply strip_prefix_some in H. subst s. apply slen_app. Qed.
Lemma encode_len n : String.length (utf8_encode n) <= 4.
Proof. unfold utf8_encode. destruct (n <? 128)%N, (n <? 2048)%N, (n <? 65536)%N; cbn; lia. Qed.
Lemma chars_len k : forall s t q, String.length s <= k -> parse_chars s = Some (t, q) -> S (String.length t + String.length q) <= String.length s.
Proof.
  induction k as [|k IH]; intros s t q L H; [destruct s; [discriminate H|cbn in L; lia]|]. destruct s as [|c s]; [discriminate H|]. cbn [parse_chars] in H. cbn [String.length] in L |- *.
  destruct (Ascii.eqb c dquote); [injection H as <- <-; cbn; lia|]. destruct (Ascii.eqb c bslash).
  - destruct s as [|e r]; [discriminate H|]. cbn [String.length] in L |- *.
    assert (Lit : forall x, match parse_chars r with Some (t0, q0) => Some (String x t0, q0) | None => None end = Some (t, q) -> S (String.length t + String.length q) <= S (S (String.length r))).
    { intros x E. destruct (parse_chars r) as [[t0 q0]|] eqn:P; [|discriminate E]. injection E as <- <-. apply IH in P; [|lia]. cbn [String.length]. lia. }
    cbv zeta in H. repeat match type of H with (if ?b then _ else _) = _ => destruct b; [first [exact (Lit _ H)|idtac]|] end; try discriminate H.
    destruct r as [|h1 [|h2 [|h3 [|h4 r2]]]]; try discriminate H. cbn [String.length] in *. destruct (hex4 h1 h2 h3 h4) as [n|]; [|discriminate H].
    destruct ((56320 <=? n) && (n <=? 57343))%N; [discriminate H|]. destruct ((55296 <=? n) && (n <=? 56319))%N.
    + destruct r2 as [|b1 [|u1 [|g1 [|g2 [|g3 [|g4 r3]]]]]]; try discriminate H. cbn [String.length] in *. destruct (Ascii.eqb b1 bslash && Ascii.eqb u1 "u"); [|discriminate H].
      destruct (hex4 g1 g2 g3 g4) as [m|]; [|discriminate H]. destruct ((56320 <=? m) && (m <=? 57343))%N; [|discriminate H].
      clear Lit. pose proof (encode_len (65536 + (n - 55296) * 1024 + (m - 56320))) as EL. revert EL H. generalize (utf8_encode (65536 + (n - 55296) * 1024 + (m - 56320))). intros u8 EL H.
      destruct (parse_chars r3) as [[t0 q0]|] eqn:P; [|discriminate H]. apply IH in P; [|lia]. clear IH. assert (E : t = u8 +:+ t0 /\ q = q0) by (split; congruence). destruct E as [-> ->]. rewrite slen_app. lia.
    + clear Lit. pose proof (encode_len n) as EL. revert EL H. generalize (utf8_encode n). intros u8 EL H.
      destruct (parse_chars r2) as [[t0 q0]|] eqn:P; [|discriminate H]. apply IH in P; [|lia]. clear IH. assert (E : t = u8 +:+ t0 /\ q = q0) by (split; congruence). destruct E as [-> ->]. rewrite slen_app. lia.
  - destruct (byte c <? 32)%N; [discriminate H|]. destruct (parse_chars s) as [[t0 q0]|] eqn:P; [|discriminate H]. injection H as <- <-. apply IH in P; [|lia]. cbn [String.length]. lia.
Qed.
Lemma str_len s t q : parse_str s = Some (t, q) -> S (String.length t + String.length q) <= String.length s.
Proof. unfold parse_str. destruct (parse_chars s) as [[t0 q0]|] eqn:P; [|discriminate]. destruct (utf8_valid t0); [|discriminate]. intros H. injection H as <- <-. exact (chars_len _ s t0 q0 (le_n _) P). Qed.
Lemma take_len s t q : take_num s = (t, q) -> String.length s = String.length t + String.length q.
Proof.
  revert t q. induction s as [|c s IH]; intros t q; cbn [take_num]; [now intros [= <- <-]|]. destruct (is_numchar c); [|now intros [= <- <-]].
  destruct (take_num s) as [a b]. intros [= <- <-]. cbn [String.length]. now rewrite (IH a b eq_refl).
Qed.
Lemma num_len t n : num_of_token t = Some n -> value_size n <= String.length t.
Proof.
  destruct t as [|c t]; [discriminate|]. unfold num_of_token. destruct (if Ascii.eqb c "-" then (true, t) else (false, String c t)) as [neg body]. destruct (take_digits body) as [ip fe].
  destruct (int_part_ok ip && frac_exp_ok fe); [|discriminate]. destruct fe; [|now intros [= <-]].
  cbv zeta. destruct ((neg && (digits_val 0 ip =? 0)%N) || negb (int_ok (if neg then (- Z.of_N (digits_val 0 ip))%Z else Z.of_N (digits_val 0 ip)))); intros [= <-]; cbn [value_size String.length]; lia.
Qed.
Lemma parse_len f :
  (forall d s v q, parse_value f d s = Some (v, q) -> value_size v + String.length q <= String.length s)
  /\ (forall d s l q, parse_elems f d s = Some (l, q) -> 1 + sum (map value_size l) + String.length q <= String.length s)
  /\ (forall d s l q, parse_members f d s = Some (l, q) -> 1 + sum (map (fun kv => String.length (fst kv) + value_size (snd kv)) l) + String.length q <= String.length s).
Proof.
  induction f as [|f (IHv & IHe & IHm)]; [repeat split; discriminate|]. split; [|split]; intros d s v q; pose proof (skip_len s) as Ls.
  - cbn [parse_value]. destruct (skip_ws s) as [|c r] eqn:Es; [discriminate|]. cbn [String.length] in Ls.
    destruct (Ascii.eqb c dquote). { destruct (parse_str r) as [[t q0]|] eqn:P; [|discriminate]. intros [= <- <-]. apply str_len in P. cbn [value_size]. lia. }
    destruct (Ascii.eqb c "["). { destruct d as [|[|d]]; try discriminate. pose proof (skip_len r) as Lr. destruct (skip_ws r) as [|c' q0]; [discriminate|]. cbn [String.length] in Lr.
      destruct (Ascii.eqb c' "]"); [intros [= <- <-]; cbn [value_size map sum]; lia|]. destruct (parse_elems f (S d) r) as [[l q1]|] eqn:E; [|discriminate]. intros [= <- <-]. apply IHe in E. cbn [value_size]. lia. }
    destruct (Ascii.eqb c "{"). { destruct d as [|[|d]]; try discriminate. pose proof (skip_len r) as Lr. destruct (skip_ws r) as [|c' q0]; [discriminate|]. cbn [String.length] in Lr.
      destruct (Ascii.eqb c' "}"); [intros [= <- <-]; cbn [value_size map sum]; lia|]. destruct (parse_members f (S d) r) as [[l q1]|] eqn:E; [|discriminate]. intros [= <- <-]. apply IHm in E. cbn [value_size]. lia. }
    destruct (Ascii.eqb c "n"). { destruct (strip_prefix "ull" r) as [q0|] eqn:E; [|discriminate]. intros [= <- <-]. apply strip_len in E. cbn [value_size]. lia. }
    destruct (Ascii.eqb c "t"). { destruct (strip_prefix "rue" r) as [q0|] eqn:E; [|discriminate]. intros [= <- <-]. apply strip_len in E. cbn [value_size]. lia. }
    destruct (Ascii.eqb c "f"). { destruct (strip_prefix "alse" r) as [q0|] eqn:E; [|discriminate]. intros [= <- <-]. apply strip_len in E. cbn [value_size]. lia. }
    destruct (take_num (String c r)) as [t q0] eqn:T. apply take_len in T. cbn [String.length] in T. destruct (num_of_token t) as [n|] eqn:N0; [|discriminate]. intros [= <- <-]. apply num_len in N0. lia.
  - cbn [parse_elems]. destruct (parse_value f d s) as [[x r]|] eqn:E; [|discriminate]. apply IHv in E. pose proof (skip_len r) as Lr. destruct (skip_ws r) as [|c q0]; [discriminate|]. cbn [String.length] in Lr.
    destruct (Ascii.eqb c "]"); [intros [= <- <-]; cbn [map sum]; lia|]. destruct (Ascii.eqb c ","); [|discriminate]. destruct (parse_elems f d q0) as [[l q1]|] eqn:E1; [|discriminate].
    intros [= <- <-]. apply IHe in E1. cbn [map sum]. lia.
  - cbn [parse_members]. destruct (skip_ws s) as [|c r]; [discriminate|]. cbn [String.length] in Ls. destruct (Ascii.eqb c dquote); [|discriminate].
    destruct (parse_str r) as [[k r1]|] eqn:P; [|discriminate]. apply str_len in P. pose proof (skip_len r1) as L1. destruct (skip_ws r1) as [|c1 r2]; [discriminate|]. cbn [String.length] in L1.
    destruct (Ascii.eqb c1 ":"); [|discriminate]. destruct (parse_value f d r2) as [[x r3]|] eqn:E; [|discriminate]. apply IHv in E. pose proof (skip_len r3) as L3. destruct (skip_ws r3) as [|c2 q0]; [discriminate|]. cbn [String.length] in L3.
    destruct (Ascii.eqb c2 "}"); [intros [= <- <-]; cbn [map sum fst snd]; lia|]. destruct (Ascii.eqb c2 ","); [|discriminate]. destruct (parse_members f d q0) as [[l q1]|] eqn:E1; [|discriminate].
    intros [= <- <-]. apply IHm in E1. cbn [map sum fst snd]. lia.
Qed.
Lemma raw_len s v : parse_raw s = Some v -> value_size v <= String.length s.
Proof.
  unfold parse_raw. destruct (parse_value (2 * String.length s + 2) 128 s) as [[x r]|] eqn:E; [|discriminate]. apply (proj1 (parse_len _)) in E. destruct (skip_ws r); [|discriminate]. intros [= <-]. lia.
Qed.
Definition members_size (m : list (string * json)) : nat := sum (map (fun kv => String.length (fst kv) + value_size (snd kv)) m).
Lemma insert_size k v m : members_size (obj_insert k v m) <= String.length k + value_size v + members_size m.
Proof.
  unfold members_size. induction m as [|[k' v'] m IH]; cbn [obj_insert]; [cbn [map sum fst snd]; lia|]. destruct (str_cmp k k'); cbn [map sum fst snd] in *; lia.
Qed.
Lemma of_list_size l : members_size (obj_of_list l) <= members_size l.
Proof.
  unfold obj_of_list. assert (G : forall l m, members_size (fold_left (fun m kv => obj_insert (fst kv) (snd kv) m) l m) <= members_size m + members_size l).
  { clear l. induction l as [|[k v] l IH]; intros m; cbn [fold_left fst snd]; [lia|]. specialize (IH (obj_insert k v m)). pose proof (insert_size k v m). unfold members_size in *. cbn [map sum fst snd]. lia. }
  exact (G l []).
Qed.
Lemma normalize_size v : value_size (normalize v) <= value_size v.
Proof.
  induction v as [| | | | |l IH|m IH] using json_ind'; cbn [normalize value_size]; try lia.
  - rewrite map_map. apply le_n_S, sum_le. intros x I. rewrite Forall_forall in IH. now apply IH.
  - apply le_n_S. fold (members_size (obj_of_list (map (fun kv => (fst kv, normalize (snd kv))) m))). eapply Nat.le_trans; [apply of_list_size|]. unfold members_size. rewrite map_map.
    apply sum_le. intros [k v] I. cbn [fst snd]. rewrite Forall_forall in IH. specialize (IH (k, v) I). cbn [snd] in IH. lia.
Qed.

(** C136: A JSON value is never larger than the text it was read from. *)
Lemma c136_json_read_pf : forall s v, json_of_text s = Some v -> value_size v <= String.length s.
Proof.
  intros s v H. unfold json_of_text in H. destruct (parse_raw s) as [r|] eqn:E; [|discriminate H]. injection H as <-. apply raw_len in E. pose proof (normalize_size r). lia.
Qed.
Example c136_json_read_ex : option_map value_size (json_of_text "{""a"":[1,""xyz"",null],""a"":2.50}") = Some 6.
Proof. vm_compute. reflexivity. Qed.

(* ------------------------------------------------------------ writing JSON *)
Definition esc_small (c : ascii) : bool := (String.length (escape_char c) <=? 6)%nat.
Lemma esc_len c : String.length (escape_char c) <= 6.
Proof. assert (K : forallb esc_small all_ascii = true) by (vm_compute; reflexivity). rewrite forallb_forall in K. apply Nat.leb_le, (K c), all_ascii_in. Qed.
Lemma escape_len s : String.length (escape s) <= 6 * String.length s.
Proof. induction s as [|c s IH]; cbn [escape String.length]; [lia|]. rewrite slen_app. pose proof (esc_len c). lia. Qed.
Lemma print_str_len s : String.length (print_str s) <= 2 + 6 * String.length s.
Proof. unfold print_str. cbn [String.length]. rewrite slen_app. cbn [String.length s1]. pose proof (escape_len s). lia. Qed.
Lemma dec_len k : forall f n acc, (n < 10 ^ N.of_nat (S k))%N -> String.length (dec_go f n acc) <= String.length acc + S k.
Proof.
  induction k as [|k IH]; intros f n acc H; (destruct f as [|f]; [cbn [dec_go]; lia|]); cbn [dec_go]; cbv zeta.
  - assert (E : (n / 10 = 0)%N) by (apply N.div_small; exact H). rewrite E. cbn [N.eqb String.length]. lia.
  - destruct (n / 10 =? 0)%N; [cbn [String.length]; lia|]. specialize (IH f (n / 10)%N (String (chr (48 + n mod 10)) acc)). cbn [String.length] in IH. rewrite <- Nat.add_succ_comm. apply IH.
    apply N.div_lt_upper_bound; [lia|]. rewrite (Nat2N.inj_succ (S k)), N.pow_succ_r' in H. exact H.
Qed.
Lemma dec_N_len n : (n < 10 ^ 20)%N -> String.length (dec_N n) <= 20.
Proof. intros H. exact (dec_len 19 _ n "" H). Qed.
Lemma int_len z : int_ok z = true -> String.length (dec_Z z) <= 21.
Proof.
  unfold int_ok. intros H. apply andb_true_iff in H as [A B]. assert (P : (Z.abs_N z < 10 ^ 20)%N).
  { apply Z.leb_le in A. apply Z.leb_le in B || apply Z.ltb_lt in B. unfold i64_min, u64_max in *. change (10 ^ 20)%N with 100000000000000000000%N. lia. }
  destruct z as [|p|p]; cbn [dec_Z]; [cbn; lia| |]; cbn [Z.abs_N] in P; pose proof (dec_N_len _ P); cbn [String.length]; lia.
Qed.
Lemma join_len l : String.length (join "," l) <= sum (map (fun s => S (String.length s)) l).
Proof.
  induction l as [|x [|y l] IH]; [cbn; lia|cbn [join map sum]; lia|]. change (join "," (x :: y :: l)) with (x +:+ "," +:+ join "," (y :: l)). rewrite !slen_app.
  cbn [map sum] in *. cbn [String.length]. lia.
Qed.
Lemma print_len j : jtext_ok j = true -> String.length (jprint j) + 4 <= 25 * value_size j.
Proof.
  induction j as [|b|z|x|s|l IH|m IH] using json_ind'; cbn [jprint value_size jtext_ok]; intros T; try (cbn; lia).
  - destruct b; cbn; lia.
  - pose proof (int_len z T). lia.
  - destruct x as [|c x]; [discriminate T|]. cbn [String.length]. lia.
  - pose proof (print_str_len s). lia.
  - cbn [String.length]. rewrite slen_app. cbn [String.length]. pose proof (join_len (map jprint l)) as J. rewrite map_map in J.
    assert (K : sum (map (fun x => S (String.length (jprint x))) l) <= sum (map (fun x => 25 * value_size x) l)).
    { apply sum_le. intros x I. rewrite Forall_forall in IH. rewrite forallb_forall in T. specialize (IH x I (T x I)). lia. }
    assert (Q : sum (map (fun x => 25 * value_size x) l) = 25 * sum (map value_size l)) by (clear; induction l as [|x l IH]; cbn [map sum]; [reflexivity|rewrite IH; lia]). lia.
  - cbn [String.length]. rewrite slen_app. cbn [String.length]. pose proof (join_len (map (fun kv => print_str (fst kv) +:+ String ":" (jprint (snd kv))) m)) as J. rewrite map_map in J.
    assert (K : sum (map (fun kv : string * json => S (String.length (print_str (fst kv) +:+ String ":" (jprint (snd kv))))) m) <= sum (map (fun kv => 25 * (String.length (fst kv) + value_size (snd kv))) m)).
    { apply sum_le. intros [k v] I. cbn [fst snd]. rewrite Forall_forall in IH. rewrite forallb_forall in T. specialize (T (k, v) I). cbn [fst snd] in T. apply andb_true_iff in T as [_ T]. specialize (IH (k, v) I T). cbn [snd] in IH.
      rewrite slen_app. cbn [String.length]. pose proof (print_str_len k). lia. }
    assert (Q : sum (map (fun kv : string * json => 25 * (String.length (fst kv) + value_size (snd kv))) m) = 25 * sum (map (fun kv => String.length (fst kv) + value_size (snd kv)) m))
      by (clear; induction m as [|x m IH]; cbn [map sum]; [reflexivity|rewrite IH; lia]). lia.
Qed.

(** C136: The text of a JSON value is at most twenty-five times as large as the value. *)
Lemma c136_json_written_pf : forall v, jwf v = true -> String.length (jprint v) <= 25 * value_size v.
Proof. intros v W. unfold jwf in W. apply andb_true_iff in W as [T _]. pose proof (print_len v T). lia. Qed.
Example c136_json_written_ex : jwf (JArr [JInt (-9223372036854775808); JStr (s1 (chr 1))]) = true /\ String.length (jprint (JArr [JInt (-9223372036854775808); JStr (s1 (chr 1))])) = 31.
Proof. split; vm_compute; reflexivity. Qed.

(* ------------------------------------------------------------ forms *)
Lemma lossy_len s : forall pend acc, (pend = [] \/ acc <> "") -> String.length (lossy_go pend acc s) <= 3 * String.length acc + 3 * String.length s.
Proof.
  induction s as [|c r IH]; intros pend acc P; cbn [lossy_go].
  - destruct pend as [|x p]; [cbn; lia|]. destruct P as [P|P]; [discriminate P|]. destruct acc; [now destruct P|]. cbn [String.length fffd s1]. lia.
  - cbv zeta. assert (N1 : s1 c <> "") by (intros X; discriminate X). assert (N2 : forall x, acc +:+ s1 x <> "") by (intros x X; destruct acc; discriminate X).
    assert (I0 : String.length (lossy_go [] "" r) <= 3 * String.length r) by (exact (IH [] "" (or_introl eq_refl))).
    assert (I1 : forall p, String.length (lossy_go p (s1 c) r) <= 3 + 3 * String.length r) by (intros p; exact (IH p (s1 c) (or_intror N1))).
    assert (I2 : forall p, String.length (lossy_go p (acc +:+ s1 c) r) <= 3 * String.length (acc +:+ s1 c) + 3 * String.length r) by (intros p; exact (IH p _ (or_intror (N2 c)))).
    clear IH N1 N2. rewrite slen_app in I2. change (String.length (s1 c)) with 1 in I2. assert (F3 : String.length fffd = 3) by reflexivity.
    assert (R : String.length (match utf8_start c with None => fffd +:+ lossy_go [] "" r | Some [] => String c (lossy_go [] "" r) | Some p => lossy_go p (s1 c) r end) <= 3 + 3 * String.length r).
    { destruct (utf8_start c) as [[|x p]|]; [cbn [String.length]; lia|apply I1|rewrite slen_app, F3; lia]. }
    revert R. generalize (match utf8_start c with None => fffd +:+ lossy_go [] "" r | Some [] => String c (lossy_go [] "" r) | Some p => lossy_go p (s1 c) r end). intros restart R.
    cbn [String.length]. destruct pend as [|[lo hi] p]; [lia|]. destruct P as [P|P]; [discriminate P|]. destruct (in_range lo hi c).
    + destruct p as [|y p].
      * rewrite slen_app. cbn [String.length]. lia.
      * specialize (I2 (y :: p)). lia.
    + rewrite slen_app, F3. destruct acc as [|a acc]; [now destruct P|]. cbn [String.length]. lia.
Qed.
Lemma dec_bytes_len k : forall s, String.length s <= k -> String.length (form_dec_bytes s) <= String.length s.
Proof.
  induction k as [|k IH]; intros s L; [destruct s; [cbn; lia|cbn in L; lia]|]. destruct s as [|c r]; [cbn; lia|]. cbn [form_dec_bytes String.length] in *.
  assert (G : forall d, String.length (String d (form_dec_bytes r)) <= S (String.length r)) by (intros d; cbn [String.length]; specialize (IH r ltac:(lia)); lia).
  destruct (Ascii.eqb c "+"); [apply G|]. destruct (Ascii.eqb c "%"); [|apply G]. destruct r as [|h [|l r']]; try apply G. destruct (unhex h), (unhex l); try apply G.
  cbn [String.length] in *. specialize (IH r' ltac:(lia)). lia.
Qed.
Lemma form_dec_len s : String.length (form_dec s) <= 3 * String.length s.
Proof. unfold form_dec, utf8_lossy. pose proof (lossy_len (form_dec_bytes s) [] "" (or_introl eq_refl)). pose proof (dec_bytes_len _ s (le_n _)). cbn [String.length] in *. lia. Qed.
Lemma pair_len seg : seg <> "" -> String.length (fst (form_pair seg)) + String.length (snd (form_pair seg)) <= 3 * String.length seg.
Proof.
  intros N0. unfold form_pair. destruct (split_once "=" seg) as [[k v]|] eqn:E; cbn [fst snd].
  - apply split_once_some in E as [-> _]. rewrite slen_app. cbn [String.length]. pose proof (form_dec_len k). pose proof (form_dec_len v). lia.
  - pose proof (form_dec_len seg). cbn [String.length]. lia.
Qed.
Lemma split_len c s : sum (map String.length (split_all c s)) <= String.length s.
Proof.
  induction s as [|d s IH]; cbn [split_all]; [cbn; lia|]. destruct (Ascii.eqb c d); [cbn [map sum String.length]; lia|]. destruct (split_all c s); cbn [map sum String.length s1] in *; lia.
Qed.

(** C136: The fields of a form are together at most three times as large as its text, and there are not more of them than it has characters. *)
Lemma c136_form_read_pf : forall s l, SpecEncodings.form_text s l -> fields_size l <= 3 * String.length s /\ length l <= String.length s.
Proof.
  intros s l F. apply c96_form_pf in F. subst l. pose proof (split_len "&" s) as L. unfold form_parse, fields_size. rewrite map_map, map_length. revert L. generalize (split_all "&" s). intros segs.
  assert (G : sum (map (fun x => String.length (fst (form_pair x)) + String.length (snd (form_pair x))) (filter (fun seg => negb (String.eqb seg "")) segs)) <= 3 * sum (map String.length segs)
            /\ length (filter (fun seg => negb (String.eqb seg "")) segs) <= sum (map String.length segs)).
  { induction segs as [|x segs [IH1 IH2]]; [cbn; lia|]. cbn [filter map sum]. destruct (String.eqb_spec x "") as [->|N0]; cbn [negb]; [cbn [String.length]; lia|]. cbn [map sum length]. pose proof (pair_len x N0).
    destruct x; [now destruct N0|]. cbn [String.length] in *. lia. }
  lia.
Qed.
Example c136_form_read_ex : SpecEncodings.form_text "a=%41&&b" [("a", "A"); ("b", "")].
Proof. apply c96_form_pf. vm_compute. reflexivity. Qed.

Definition enc_small (c : ascii) : bool := (String.length (form_enc_char c) <=? 3)%nat.
Lemma form_enc_len s : String.length (form_enc s) <= 3 * String.length s.
Proof.
  assert (K : forallb enc_small all_ascii = true) by (vm_compute; reflexivity). rewrite forallb_forall in K.
  induction s as [|c s IH]; cbn [form_enc String.length]; [lia|]. rewrite slen_app. pose proof (K c (all_ascii_in c)) as C. apply Nat.leb_le in C. lia.
Qed.
(** C136: The text of a form is at most three times as large as its fields, plus two characters for each of them. *)
Lemma c136_form_written_pf : forall l, String.length (form_serialize l) <= 3 * fields_size l + 2 * length l.
Proof.
  intros l. unfold form_serialize. assert (J : forall l, String.length (join "&" l) <= sum (map (fun s => S (String.length s)) l)).
  { clear l. induction l as [|x [|y l] IH]; [cbn; lia|cbn [join map sum]; lia|]. change (join "&" (x :: y :: l)) with (x +:+ "&" +:+ join "&" (y :: l)). rewrite !slen_app. cbn [map sum] in *. cbn [String.length]. lia. }
  eapply Nat.le_trans; [apply J|]. rewrite map_map. unfold fields_size. induction l as [|[k v] l IH]; cbn [map sum length fst snd]; [lia|].
  rewrite slen_app. cbn [String.length]. pose proof (form_enc_len k). pose proof (form_enc_len v). cbn [fst snd] in IH. lia.
Qed.
Example c136_form_written_ex : String.length (form_serialize [("a", "&"); ("b", "")]) = 8.
Proof. vm_compute. reflexivity. Qed.

(* ------------------------------------------------------------ requests and responses *)
Lemma b64_len al k : forall s t, String.length s <= k -> b64_decode al s = Some t -> String.length t <= String.length s.
Proof.
  induction k as [|k IH]; intros s t L H; [destruct s; [injection H as <-; cbn; lia|cbn in L; lia]|].
  destruct s as [|c0 [|c1 [|c2 [|c3 r]]]]; cbn [b64_decode] in H; try discriminate H.
  - injection H as <-. cbn. lia.
  - destruct (b64_val al c0), (b64_val al c1); try discriminate H. destruct (_ =? 0)%N; [|discriminate H]. injection H as <-. cbn [String.length s1]. lia.
  - destruct (b64_val al c0), (b64_val al c1), (b64_val al c2); try discriminate H. destruct (_ =? 0)%N; [|discriminate H]. injection H as <-. cbn [String.length s1]. lia.
  - destruct (b64_val al c0), (b64_val al c1), (b64_val al c2), (b64_val al c3); try discriminate H. destruct (b64_decode al r) as [t'|] eqn:E; [|discriminate H]. injection H as <-. cbn [String.length] in *. apply IH in E; lia.
Qed.
Lemma jwt_len ssi jwt o : decode_unverified ssi jwt = Ok o -> value_size (JObj o) <= String.length jwt.
Proof.
  unfold decode_unverified, jws_payload. intros H. apply rbind_ok in H as ([m pl] & H & X). apply rbind_ok in H as ([[h p] sg] & S & H).
  assert (L : String.length p <= String.length jwt).
  { unfold split_jws in S. destruct (split_once "." jwt) as [[h0 r]|] eqn:E; [|discriminate S]. destruct (split_once "." r) as [[p0 s0]|] eqn:E'; [|discriminate S]. injection S as <- <- <-.
    apply split_once_some in E as [-> _]. apply split_once_some in E' as [-> _]. rewrite !slen_app. cbn [String.length]. rewrite slen_app. lia. }
  apply rbind_ok in H as (sig & _ & H). apply rbind_ok in H as (hd & _ & H). apply rbind_ok in H as (b & _ & H). apply rbind_ok in H as (pl' & P & H). injection H as <- <-.
  assert (L' : String.length pl' <= String.length p).
  { destruct b; [|now injection P as <-]. unfold b64url_decode in P. destruct (b64_decode UrlSafe p) as [t|] eqn:E; [|discriminate P]. injection P as <-. exact (b64_len _ _ _ _ (le_n _) E). }
  unfold map_of_text in X. destruct (json_of_text pl') as [[| | | | | |m']|] eqn:J; try discriminate X. injection X as <-. apply c136_json_read_pf in J. lia.
Qed.

Definition field_cost (kv : string * string) : nat := String.length (fst kv) + String.length (snd kv) + 1.
Lemma split_size c l : sum (map field_cost l) = sum (map field_cost (others_of c l)) + sum (map (fun v => field_cost (c, v)) (values_of c l)).
Proof.
  unfold others_of, values_of. induction l as [|[k v] l IH]; [reflexivity|]. cbn [map sum filter fst]. rewrite IH. destruct (String.eqb_spec k c) as [->|N0]; cbn [negb map sum snd]; lia.
Qed.

(** C136: What a wallet gets to process is never larger than what it was sent: a request object is at most as large as the token it came in, and a
    request given directly at most four times as large as the query. *)
Lemma c136_request_pf :
  forall (url_parse : string -> option url) (ssi_header : obj -> option bool) (uri_ok : string -> bool) (http : http_client)
    (query : string) (r : auth_request) (a : aro) (jwt : option string),
    from_query_params url_parse query = Ok r -> snd (resolve_request url_parse ssi_header uri_ok http r) = Ok (a, jwt) ->
    value_size (aro_to_json a) <= match jwt with Some t => String.length t | None => 1 + 4 * String.length query end.
Proof.
  intros up ssi uok http q r a jwt F H. unfold from_query_params in F.
  assert (D : forall t x, decode_aro up ssi t = Ok x -> value_size (aro_to_json x) <= String.length t).
  { intros t x E. unfold decode_aro in E. apply rbind_ok in E as (o & E & E'). apply c08_roundtrip_pf in E' as (-> & _). exact (jwt_len _ _ _ E). }
  unfold resolve_request in H. destruct (ar_indirection r) as [t|u|o] eqn:I.
  - rewrite lift_bind in H. destruct (validate_typ t _); [|discriminate H]. rewrite lift_bind in H. destruct (decode_aro up ssi t) as [x|] eqn:E; [|discriminate H]. injection H as -> <-. exact (D _ _ E).
  - rewrite lift_bind in H. destruct (of_bool (uok (url_str u)) _); [|discriminate H]. apply mbind_ok in H as (rs & _ & H).
    rewrite lift_bind in H. destruct (of_bool (utf8_valid (rs_body rs)) _); [|discriminate H]. rewrite lift_bind in H. destruct (of_bool (is_success (rs_status rs)) _); [|discriminate H].
    rewrite lift_bind in H. destruct (validate_typ (rs_body rs) _); [|discriminate H]. rewrite lift_bind in H. destruct (decode_aro up ssi (rs_body rs)) as [x|] eqn:E; [|discriminate H]. injection H as -> <-. exact (D _ _ E).
  - rewrite lift_bind in H. match type of H with context [aro_of_obj up ?x] => set (o' := x) in H end. destruct (aro_of_obj up o') as [x|] eqn:E; [|discriminate H]. injection H as -> <-. apply c08_roundtrip_pf in E as (-> & _).
    destruct (c136_form_read_pf q (form_parse q) (proj1 (c96_form_pf q _) eq_refl)) as [S1 S2]. cbn [value_size]. fold (members_size o').
    pose proof (split_size "client_id" (form_parse q)) as SP. unfold fields_size in S1.
    unfold from_pairs in F. apply rbind_ok in F as (cid & C & F). cbv zeta in F. injection F as F. subst r. cbn [ar_client_id ar_indirection] in *.
    assert (O : o = obj_of_list (map (fun kv => (fst kv, JStr (snd kv))) (others_of "client_id" (form_parse q)))).
    { destruct (values_of "request" _) as [|? [|? ?]]; [|discriminate I|]; (destruct (values_of "request_uri" _) as [|v [|? ?]]; [|destruct (up v); [discriminate I|]|]; now injection I as <-). }
    assert (L : members_size o <= sum (map field_cost (others_of "client_id" (form_parse q)))).
    { subst o. eapply Nat.le_trans; [apply of_list_size|]. unfold members_size. rewrite map_map. apply sum_le. intros [k v] _. unfold field_cost. cbn [fst snd value_size]. lia. }
    assert (T : sum (map field_cost (form_parse q)) = sum (map (fun kv : string * string => String.length (fst kv) + String.length (snd kv)) (form_parse q)) + length (form_parse q)).
    { generalize (form_parse q). induction l as [|[k v] l IH]; cbn [map sum length]; [reflexivity|]. rewrite IH. unfold field_cost. cbn [fst snd]. lia. }
    destruct (values_of "client_id" (form_parse q)) as [|c [|? ?]]; [| |discriminate C]; injection C as <-; subst o'.
    + cbn [sum map] in SP. lia.
    + change (uo_put p_client_id c o) with (obj_insert "client_id" (JStr c) o). pose proof (insert_size "client_id" (JStr c) o) as IS. cbn [value_size] in IS. change (String.length "client_id") with 9 in IS. cbn [sum map] in SP. change (field_cost ("client_id", c)) with (9 + String.length c + 1) in SP. lia.
Qed.
Example c136_request_ex : is_ok (from_query_params simple_parse "client_id=c&nonce=a&nonce=b") = true.
Proof. vm_compute. reflexivity. Qed.

Lemma mapM_sizes f m l : (forall kv e, f kv = Ok e -> String.length (fst e) + sum (map presentation_size (snd e)) <= String.length (fst kv) + value_size (snd kv)) ->
  mapM f m = Ok l -> token_size l <= members_size m.
Proof.
  intros F. revert l. induction m as [|kv m IH]; intros l H; cbn [mapM] in H; [injection H as <-; cbn; lia|].
  apply rbind_ok in H as (e & E & H). apply rbind_ok in H as (l' & E' & H). injection H as <-. specialize (IH l' E'). specialize (F _ _ E). unfold token_size, members_size in *. cbn [map sum]. lia.
Qed.
Lemma vp_insert_size id l t : token_size (vp_insert id l t) <= String.length id + sum (map presentation_size l) + token_size t.
Proof.
  unfold token_size. induction t as [|[k v] t IH]; cbn [vp_insert map sum fst snd]; [lia|]. destruct (String.eqb_spec id k) as [->|]; cbn [map sum fst snd]; lia.
Qed.
Lemma vp_text_size s t : vp_of_text s = Ok t -> token_size t <= String.length s.
Proof.
  unfold vp_of_text. destruct (parse_raw s) as [v|] eqn:P; [|discriminate]. apply raw_len in P. unfold vp_of_json. destruct v as [| | | | | |m]; try discriminate. intros H. unfold vp_of_entries in H.
  apply rbind_ok in H as (l & M & H). injection H as <-. cbn [value_size] in P. fold (members_size m) in P.
  assert (L : token_size l <= members_size m).
  { revert M. apply mapM_sizes. intros [k v] e E. cbn [fst snd] in *. apply rbind_ok in E as (is & D & E). injection E as <-. cbn [fst snd].
    unfold de_list in D. destruct v as [| | | | |js|]; try discriminate D. cbn [value_size]. assert (G : sum (map presentation_size is) <= sum (map value_size js)); [|lia]. clear - D. revert is D.
    induction js as [|j js IH]; intros is D; cbn [mapM] in D; [injection D as <-; cbn; lia|]. apply rbind_ok in D as (i & E & D). apply rbind_ok in D as (l' & E' & D). injection D as <-. specialize (IH l' E'). cbn [map sum].
    assert (presentation_size i <= value_size j); [|lia]. pose proof (normalize_size j) as N0. unfold item_of_json in E. destruct (normalize j); try discriminate E; injection E as <-; exact N0. }
  assert (G : forall l t, token_size (fold_left (fun t e => vp_insert (fst e) (snd e) t) l t) <= token_size t + token_size l).
  { clear. induction l as [|[k v] l IH]; intros t; cbn [fold_left fst snd]; [lia|]. specialize (IH (vp_insert k v t)). pose proof (vp_insert_size k v t). unfold token_size in *. cbn [map sum fst snd]. lia. }
  specialize (G l []). cbn [token_size map sum] in G. change (token_size []) with 0 in G. lia.
Qed.
Lemma field_le k v l : field_values k l = [v] -> String.length v <= fields_size l.
Proof.
  unfold field_values, fields_size. induction l as [|[a b] l IH]; cbn [filter fst map sum snd]; [discriminate|]. destruct (String.eqb a k); [|intros H; specialize (IH H); lia].
  cbn [map snd]. intros [= <- _]. lia.
Qed.
Lemma field_le2 k k' v v' l : k <> k' -> field_values k l = [v] -> field_values k' l = [v'] -> String.length v + String.length v' <= fields_size l.
Proof.
  intros N0. unfold fields_size. induction l as [|[a b] l IH]; [discriminate|]. intros H H'. unfold field_values in H, H'. cbn [filter fst map sum snd] in *.
  destruct (String.eqb_spec a k) as [->|]; cbn [map snd] in H.
  - apply String.eqb_neq in N0. rewrite N0 in H'. injection H as -> _. pose proof (field_le k' v' l H') as X. unfold fields_size in X. lia.
  - destruct (String.eqb_spec a k') as [->|]; cbn [map snd] in H'; [injection H' as -> _; pose proof (field_le k v l H) as X; unfold fields_size in X; lia|]. specialize (IH H H'). lia.
Qed.

(** C136: What a verifier gets to process is at most three times as large as the body it was sent. *)
Lemma c136_response_pf : forall (body : string) (r : auth_response), from_form body = Ok r -> response_size r <= 3 * String.length body.
Proof.
  intros b r H. destruct (c136_form_read_pf b (form_parse b) (proj1 (c96_form_pf b _) eq_refl)) as [S1 _]. unfold from_form in H. cbv zeta in H.
  assert (X : (exists t, field_values "response" (form_parse b) = [t] /\ r = Jwt t)
    \/ (let? st := match field_values "state" (form_parse b) with [] => Ok None | [s] => Ok (Some s) | _ => Err "duplicate field `state`" end in
        let? vt := match field_values "vp_token" (form_parse b) with [] => Err "missing field `vp_token`" | [v] => Ok v | _ => Err "duplicate field `vp_token`" end in
        let? t := vp_of_text vt in Ok (Unencoded (mk_unencoded t st))) = Ok r).
  { destruct (field_values "response" (form_parse b)) as [|t [|? ?]]; [now right| |now right]. left. exists t. split; [reflexivity|]. now injection H as <-. }
  clear H. destruct X as [(t & E & ->)|H].
  - apply field_le in E. cbn [response_size]. lia.
  - apply rbind_ok in H as (st & Es & H). apply rbind_ok in H as (vt & Ev & H). apply rbind_ok in H as (t & Et & H). injection H as <-. cbn [response_size ur_vp_token ur_state]. apply vp_text_size in Et.
    destruct (field_values "vp_token" (form_parse b)) as [|v [|? ?]] eqn:V; try discriminate Ev. injection Ev as ->.
    destruct (field_values "state" (form_parse b)) as [|s0 [|? ?]] eqn:Q; try discriminate Es; injection Es as <-; cbn [text_size].
    + apply field_le in V. lia.
    + pose proof (field_le2 "vp_token" "state" _ _ _ ltac:(intros X; discriminate X) V Q). lia.
Qed.
Example c136_response_ex : is_ok (from_form "state=1&vp_token=%7B%22a%22:[]}") = true.
Proof. vm_compute. reflexivity. Qed.

(** C136: The form of a response is at most seventy-five times as large as the response and the number of its ids. *)
Lemma c136_answer_pf :
  forall (t : vp_token) (state : option string), token_ok t ->
    String.length (unencoded_form (mk_unencoded t state)) <= 75 * (token_size t + length t) + 3 * text_size state + 150.
Proof.
  intros t st T. pose proof (print_len _ (PfResponse.members_text_ok t T)) as P. unfold unencoded_form, unencoded_pairs. cbn [ur_vp_token ur_state].
  assert (V : value_size (JObj (vp_members t)) = 1 + (token_size t + length t)).
  { cbn [value_size]. f_equal. unfold vp_members, token_size. rewrite map_map. cbn [fst snd value_size]. clear. induction t as [|[k l] t IH]; cbn [map sum length fst snd]; [reflexivity|]. rewrite IH.
    assert (E : map value_size (map item_to_json l) = map presentation_size l) by (rewrite map_map; apply map_ext; intros [s|m]; reflexivity). rewrite E. lia. }
  rewrite V in P. unfold vp_print. revert P. generalize (jprint (JObj (vp_members t))). intros x P. eapply Nat.le_trans; [apply c136_form_written_pf|]. unfold fields_size.
  destruct st as [s|]; cbn [map sum fst snd length text_size]; change (String.length "vp_token") with 8; change (String.length "state") with 5; lia.
Qed.
Example c136_answer_ex : token_ok PfResponse.toy_token /\ Nat.ltb 0 (token_size PfResponse.toy_token) = true.
Proof. split; [apply PfResponse.c43_injective_ex|vm_compute; reflexivity]. Qed.

(* ------------------------------------------------------------ copies *)
Lemma add_count id raw s : sum (map (fun e => length (snd e)) (sel_add id raw s)) = S (sum (map (fun e => length (snd e)) s)).
Proof.
  induction s as [|[k l] s IH]; cbn [sel_add]; [reflexivity|]. destruct (String.eqb k id); cbn [map sum snd]; [rewrite app_length; cbn [length]; lia|rewrite IH; lia].
Qed.
(** C136: The example wallet gives as many copies of credentials as there are credential queries. *)
Lemma c136_copies_pf :
  forall (lower : string -> string) (store : list credential) (q : dcql) (sel : selection), match_query lower store q = Ok sel ->
    sum (map (fun e => length (snd e)) sel) = length (dq_credentials q).
Proof.
  intros lower store q sel H. unfold match_query in H. apply rbind_ok in H as (s & E & H). assert (s = sel) as -> by (destruct s; congruence). clear H.
  assert (G : forall qs s0 s, match_all lower store qs s0 = Ok s -> sum (map (fun e => length (snd e)) s) = sum (map (fun e => length (snd e)) s0) + length qs).
  { induction qs as [|x qs IH]; intros s0 s H; cbn [match_all] in H; [injection H as <-; cbn [length]; lia|]. apply rbind_ok in H as (c & _ & H). apply IH in H. rewrite add_count in H. cbn [length]. lia. }
  exact (G _ _ _ E).
Qed.
Example c136_copies_ex :
  match_query (fun s => s) [pid] (dcql_new [pid_query "a" "urn:pid" "age"; pid_query "a" "urn:pid" "age"]) = Ok [("a", [mc_raw pid; mc_raw pid])].
Proof. vm_compute. reflexivity. Qed.

(** The query that asks [n] times for the same. *)
Definition once_more : json := JObj [("format", JStr "dc+sd-jwt"); ("id", JStr "a")].
Definition again (n : nat) : json := JObj [("credentials", JArr (repeat once_more n))].
Lemma again_size n : value_size (again n) = 13 + 21 * n.
Proof.
  unfold again. cbn [value_size map sum fst snd]. change (String.length "credentials") with 11.
  assert (E : sum (map value_size (repeat once_more n)) = 21 * n); [|lia].
  induction n as [|n IH]; [reflexivity|]. cbn [repeat map sum]. rewrite IH. change (value_size once_more) with 21. lia.
Qed.
Lemma mapM_repeat {A B} (f : A -> res B) x y n : f x = Ok y -> mapM f (repeat x n) = Ok (repeat y n).
Proof. intros E. induction n as [|n IH]; [reflexivity|]. cbn [repeat mapM]. rewrite E. cbn [rbind]. rewrite IH. reflexivity. Qed.
Lemma again_read n : dcql_of_json (again (S n)) = Ok (dcql_new (repeat (mk_cred "a" DcSdJwt [] None None None None None) (S n))).
Proof.
  assert (E : cred_of_json once_more = Ok (mk_cred "a" DcSdJwt [] None None None None None)) by (vm_compute; reflexivity).
  unfold dcql_of_json, again. cbn [de_fields map obj_get rbind nth_fld nth f_req String.eqb Ascii.eqb Bool.eqb f_opt]. unfold de_ne. cbn [de_list]. rewrite (mapM_repeat _ _ _ (S n) E). reflexivity.
Qed.

(** C136: But a request can make the example wallet's answer larger than itself by any factor a credential is: twenty-one bytes for each copy
    get that many copies of the same credential. *)
Lemma c136_amplify_refuted_pf :
  forall (lower sign : string -> string) (now : Z) (c : credential) (nonce audience : string) (n : nat), mc_format c = DcSdJwt ->
    exists q, dcql_of_json (again (S n)) = Ok q /\ value_size (again (S n)) = 34 + 21 * n
      /\ match_query lower [c] q = Ok [("a", repeat (mc_raw c) (S n))]
      /\ build_vp_token sign now [("a", repeat (mc_raw c) (S n))] nonce audience = [("a", repeat (present sign now nonce audience (mc_raw c)) (S n))].
Proof.
  intros lower sign now c nonce aud n F. eexists. split; [apply again_read|]. split; [rewrite again_size; lia|]. split.
  - unfold match_query. cbn [dq_credentials dcql_new].
    assert (M : match_credential lower [c] (mk_cred "a" DcSdJwt [] None None None None None) = Ok c).
    { unfold match_credential, vct_values, doctype_value, required_claims, find_by_format, format_matches. cbn [cq_meta obj_get cq_claims cq_format find]. rewrite F. reflexivity. }
    assert (G : forall k l, match_all lower [c] (repeat (mk_cred "a" DcSdJwt [] None None None None None) k) [("a", l)] = Ok [("a", l ++ repeat (mc_raw c) k)]).
    { induction k as [|k IH]; intros l; cbn [repeat match_all]; [now rewrite app_nil_r|]. rewrite M. cbn [rbind cq_id sel_add]. rewrite String.eqb_refl, IH. now rewrite <- app_assoc. }
    cbn [repeat match_all]. rewrite M. cbn [rbind cq_id sel_add]. rewrite (G n [mc_raw c]). reflexivity.
  - unfold build_vp_token. cbn [fold_left fst snd vp_new vp_insert]. do 2 f_equal. f_equal. generalize (S n). intros k. induction k as [|k IH]; [reflexivity|]. cbn [repeat map]. now rewrite IH.
Qed.
