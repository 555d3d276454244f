(** Lemmas about [ExCache]: extending a text, reading a cut or overwritten cache file. *)
From Coq Require Import Lia Arith.
From Verif Require Import Base BaseFacts Utf8 Utf8Facts Json JsonFacts JsonText JsonTextFacts JsonPretty SpecJsonText GrammarFacts PfGrammar PrettyFacts
  Base64 Base64Facts PfClient PfResponse ExCache SpecCache.

(* ------------------------------------------------------------ the parser on a longer text *)
Definition not_number (v : json) : Prop := match v with JInt _ | JFloat _ => False | _ => True end.

Lemma skip_more s x c r : skip_ws s = String c r -> skip_ws (s +:+ x) = String c (r +:+ x).
Proof. induction s as [|a s IH]; cbn; [discriminate|]. destruct (is_ws a); [exact IH|]. intros H. injection H as -> ->. reflexivity. Qed.
Lemma str_more s x t q : parse_str s = Some (t, q) -> parse_str (s +:+ x) = Some (t, q +:+ x).
Proof.
  unfold parse_str. destruct (parse_chars s) as [[t' q']|] eqn:P; [|discriminate]. destruct (utf8_valid t') eqn:U; [|discriminate]. intros H. injection H as -> ->.
  destruct (parse_spells (String.length s) s t q (le_n _) P) as (raw & -> & Sp). rewrite sapp_assoc. cbn [String.append].
  rewrite (spells_parse raw t Sp), U. reflexivity.
Qed.
Lemma strip_more p : forall s x q, strip_prefix p s = Some q -> strip_prefix p (s +:+ x) = Some (q +:+ x).
Proof.
  induction p as [|c p IH]; cbn; intros s x q H; [injection H as ->; reflexivity|]. destruct s as [|d s]; [discriminate|]. cbn. destruct (Ascii.eqb c d); [auto|discriminate].
Qed.
Lemma take_more s x : forall t q, take_num s = (t, q) -> q <> "" -> take_num (s +:+ x) = (t, q +:+ x).
Proof.
  induction s as [|c s IH]; cbn; intros t q H N; [injection H as <- <-; contradiction|]. destruct (is_numchar c).
  - destruct (take_num s) as [a b] eqn:E. injection H as <- <-. rewrite (IH a b eq_refl N). reflexivity.
  - injection H as <- <-. reflexivity.
Qed.
Lemma num_is t n : num_of_token t = Some n -> ~ not_number n.
Proof.
  unfold num_of_token. destruct (match t with String c r => if Ascii.eqb c "-" then (true, r) else (false, t) | "" => (false, t) end) as [neg body].
  destruct (take_digits body) as [ip fe]. destruct (int_part_ok ip && frac_exp_ok fe); [|discriminate]. destruct fe.
  - match goal with |- context [if ?b then _ else _] => destruct b end; intros H; injection H as <-; auto.
  - intros H; injection H as <-; auto.
Qed.

Lemma more f :
  (forall d s v r, parse_value f d s = Some (v, r) -> r <> "" \/ not_number v -> forall x, parse_value f d (s +:+ x) = Some (v, r +:+ x))
  /\ (forall d s l r, parse_elems f d s = Some (l, r) -> forall x, parse_elems f d (s +:+ x) = Some (l, r +:+ x))
  /\ (forall d s l r, parse_members f d s = Some (l, r) -> forall x, parse_members f d (s +:+ x) = Some (l, r +:+ x)).
Proof.
  induction f as [|f (IHv & IHe & IHm)]; [repeat split; intros; discriminate|]. repeat split.
  - intros d s v r H N x. cbn [parse_value] in *. destruct (skip_ws s) as [|c q] eqn:E; [discriminate|]. rewrite (skip_more s x c q E).
    destruct (Ascii.eqb c dquote).
    { destruct (parse_str q) as [[t q']|] eqn:P; [|discriminate]. injection H as <- <-. rewrite (str_more q x t q' P). reflexivity. }
    destruct (Ascii.eqb c "[").
    { destruct d as [|[|d]]; try discriminate. destruct (skip_ws q) as [|c' q'] eqn:E'; [discriminate|]. rewrite (skip_more q x c' q' E').
      destruct (Ascii.eqb c' "]"); [injection H as <- <-; reflexivity|]. destruct (parse_elems f (S d) q) as [[l q2]|] eqn:P; [|discriminate]. injection H as <- <-.
      rewrite (IHe _ _ _ _ P x). reflexivity. }
    destruct (Ascii.eqb c "{").
    { destruct d as [|[|d]]; try discriminate. destruct (skip_ws q) as [|c' q'] eqn:E'; [discriminate|]. rewrite (skip_more q x c' q' E').
      destruct (Ascii.eqb c' "}"); [injection H as <- <-; reflexivity|]. destruct (parse_members f (S d) q) as [[l q2]|] eqn:P; [|discriminate]. injection H as <- <-.
      rewrite (IHm _ _ _ _ P x). reflexivity. }
    destruct (Ascii.eqb c "n"); [destruct (strip_prefix "ull" q) eqn:P; [|discriminate]; injection H as <- <-; now rewrite (strip_more _ _ x _ P)|].
    destruct (Ascii.eqb c "t"); [destruct (strip_prefix "rue" q) eqn:P; [|discriminate]; injection H as <- <-; now rewrite (strip_more _ _ x _ P)|].
    destruct (Ascii.eqb c "f"); [destruct (strip_prefix "alse" q) eqn:P; [|discriminate]; injection H as <- <-; now rewrite (strip_more _ _ x _ P)|].
    destruct (take_num (String c q)) as [t q'] eqn:P. destruct (num_of_token t) as [n|] eqn:T; [|discriminate]. injection H as <- <-.
    destruct N as [N|N]; [|now apply num_is in T]. change (String c (q +:+ x)) with (String c q +:+ x). rewrite (take_more _ x _ _ P N), T. reflexivity.
  - intros d s l r H x. cbn [parse_elems] in *. destruct (parse_value f d s) as [[v r1]|] eqn:P; [|discriminate].
    destruct (skip_ws r1) as [|c q] eqn:E; [discriminate|]. rewrite (IHv _ _ _ _ P) by (left; intros ->; discriminate). rewrite (skip_more r1 x c q E).
    destruct (Ascii.eqb c "]"); [injection H as <- <-; reflexivity|]. destruct (Ascii.eqb c ","); [|discriminate].
    destruct (parse_elems f d q) as [[l' q']|] eqn:P'; [|discriminate]. injection H as <- <-. rewrite (IHe _ _ _ _ P' x). reflexivity.
  - intros d s l r H x. cbn [parse_members] in *. destruct (skip_ws s) as [|c r0] eqn:E; [discriminate|]. rewrite (skip_more s x c r0 E).
    destruct (Ascii.eqb c dquote); [|discriminate]. destruct (parse_str r0) as [[k r1]|] eqn:P; [|discriminate]. rewrite (str_more r0 x k r1 P).
    destruct (skip_ws r1) as [|c1 r2] eqn:E1; [discriminate|]. rewrite (skip_more r1 x c1 r2 E1). destruct (Ascii.eqb c1 ":"); [|discriminate].
    destruct (parse_value f d r2) as [[v r3]|] eqn:Pv; [|discriminate]. destruct (skip_ws r3) as [|c2 q] eqn:E2; [discriminate|].
    rewrite (IHv _ _ _ _ Pv) by (left; intros ->; discriminate). rewrite (skip_more r3 x c2 q E2).
    destruct (Ascii.eqb c2 "}"); [injection H as <- <-; reflexivity|]. destruct (Ascii.eqb c2 ","); [|discriminate].
    destruct (parse_members f d q) as [[l' q']|] eqn:P'; [|discriminate]. injection H as <- <-. rewrite (IHm _ _ _ _ P' x). reflexivity.
Qed.

Lemma brace_object f d s v r : parse_value f d (String "{" s) = Some (v, r) -> not_number v.
Proof.
  destruct f as [|f]; [discriminate|]. cbn [parse_value skip_ws]. change (is_ws "{") with false. cbv iota.
  change (Ascii.eqb "{" dquote) with false. change (Ascii.eqb "{" "[") with false. change (Ascii.eqb "{" "{") with true. cbv iota.
  destruct d as [|[|d]]; try discriminate. destruct (skip_ws s) as [|c q]; [discriminate|]. destruct (Ascii.eqb c "}"); [intros H; injection H as <- <-; exact I|].
  destruct (parse_members f (S d) s) as [[l q']|]; [|discriminate]. intros H. injection H as <- <-. exact I.
Qed.

(* ------------------------------------------------------------ the text of the file *)
Lemma cached_ok d c k : utf8_valid d = true -> jtext_ok (cached_json d c k) = true.
Proof. intros U. cbn -[b64std_encode utf8_valid]. unfold b64std_encode. rewrite U, !b64_utf8. reflexivity. Qed.
Lemma cached_depth d c k : jdepth (cached_json d c k) = 1.
Proof. reflexivity. Qed.
Lemma text_brace d c k : exists r, cache_text d c k = String "{" r.
Proof. eexists. reflexivity. Qed.

Lemma text_raw d c k : utf8_valid d = true -> parse_raw (cache_text d c k) = Some (cached_json d c k).
Proof. intros U. apply parse_raw_pretty; [now apply cached_ok|rewrite cached_depth; lia]. Qed.

Lemma cut_raw d c k p r : utf8_valid d = true -> cache_text d c k = p +:+ r -> r <> "" -> parse_raw p = None.
Proof.
  intros U E N. destruct (parse_raw p) as [raw|] eqn:P; [|reflexivity]. exfalso.
  assert (J : json_of_text p = Some (normalize raw)) by (unfold json_of_text; now rewrite P).
  apply c95_grammar_pf in J. destruct (reads _ _ _ J) as (raw2 & _ & R).
  pose proof (pretty_rt _ (cached_ok d c k U) "" (2 * String.length (cache_text d c k) + 7) 128 "" ltac:(constructor) ltac:(cbn; lia) ltac:(rewrite cached_depth; lia) eq_refl) as W.
  fold (cache_text d c k) in W. rewrite sapp_nil_r in W.
  assert (L : String.length p <= String.length (cache_text d c k)) by (rewrite E, slen_app; lia).
  destruct (R (2 * String.length (cache_text d c k) + 7)) as (r2 & P2 & S2); [lia|].
  destruct p as [|a p]; [destruct (2 * String.length (cache_text d c k) + 7); discriminate P2|].
  destruct (text_brace d c k) as (t & Et). rewrite Et in E. injection E as <- E.
  pose proof (brace_object _ _ _ _ _ P2) as Nn. apply (proj1 (more _)) with (x := r) in P2; [|now right].
  cbn [String.append] in P2. rewrite <- E, <- Et, W in P2. injection P2 as _ E2. destruct r2, r; try discriminate; contradiction.
Qed.

Lemma skip_brace x : skip_ws (x +:+ "}") <> "".
Proof. induction x as [|c x IH]; cbn; [discriminate|]. destruct (is_ws c); [exact IH|discriminate]. Qed.
Lemma over_raw d c k x : utf8_valid d = true -> parse_raw (cache_text d c k +:+ x +:+ "}") = None.
Proof.
  intros U. unfold parse_raw.
  pose proof (pretty_rt _ (cached_ok d c k U) "" (2 * String.length (cache_text d c k +:+ x +:+ "}") + 2) 128 "" ltac:(constructor)) as W.
  fold (cache_text d c k) in W. rewrite sapp_nil_r in W. specialize (W ltac:(rewrite slen_app; pose proof (need_le _ (cached_ok d c k U)); pose proof (pretty_len (cached_json d c k) ""); fold (cache_text d c k) in *; lia) ltac:(rewrite cached_depth; lia) eq_refl).
  apply (proj1 (more _)) with (x := x +:+ "}") in W; [|right; exact I]. rewrite W. cbn [String.append].
  destruct (skip_ws (x +:+ "}")) eqn:E; [now apply skip_brace in E|reflexivity].
Qed.

Lemma std_rt s : b64std_decode (b64std_encode s) = Some s.
Proof.
  unfold b64std_decode. rewrite trim_padded. unfold b64std_encode.
  assert (H : (Nat.modulo (String.length (b64_encode Std true s)) 4 =? 0)%nat = true /\ (String.length (b64_encode Std true s) - String.length (b64_encode Std false s) <=? 2)%nat = true).
  { induction s as [|a|a b|a b c s IH] using string_ind3; try (split; reflexivity).
    destruct IH as [I1 I2]. change (b64_encode Std true (String a (String b (String c s)))) with
      (String (b64_sym Std (byte a / 4)) (String (b64_sym Std (byte a mod 4 * 16 + byte b / 16)) (String (b64_sym Std (byte b mod 16 * 4 + byte c / 64)) (String (b64_sym Std (byte c mod 64)) (b64_encode Std true s))))).
    change (b64_encode Std false (String a (String b (String c s)))) with
      (String (b64_sym Std (byte a / 4)) (String (b64_sym Std (byte a mod 4 * 16 + byte b / 16)) (String (b64_sym Std (byte b mod 16 * 4 + byte c / 64)) (String (b64_sym Std (byte c mod 64)) (b64_encode Std false s))))).
    cbn [String.length]. split; [|exact I2]. apply Nat.eqb_eq. apply Nat.eqb_eq in I1.
    replace (S (S (S (S (String.length (b64_encode Std true s)))))) with (String.length (b64_encode Std true s) + 1 * 4) by lia. now rewrite Nat.mod_add by lia. }
  destruct H as [-> ->]. cbn [andb]. apply b64_rt.
Qed.

Lemma text_utf8 d c k : utf8_valid d = true -> utf8_valid (cache_text d c k) = true.
Proof.
  intros U. unfold cache_text, cached_json. cbn [jpretty map join fst snd jprint].
  repeat apply utf8_valid_cat; try reflexivity; apply (escape_utf8 _ []); try constructor; first [exact U|apply b64_utf8].
Qed.

(* ------------------------------------------------------------ loading *)
Lemma take_drop n : forall s, str_take n s +:+ str_drop n s = s.
Proof. induction n as [|n IH]; intros [|c s]; cbn; [reflexivity..|]. now rewrite IH. Qed.
Lemma take_all n : forall s, String.length s <= n -> str_take n s = s /\ str_drop n s = "".
Proof. induction n as [|n IH]; intros [|c s] H; cbn in *; try lia; auto. destruct (IH s ltac:(lia)) as [-> ->]. auto. Qed.
Lemma drop_len n : forall s, n < String.length s -> str_drop n s <> "".
Proof. induction n as [|n IH]; intros [|c s] H; cbn in *; try lia; [discriminate|]. apply IH. lia. Qed.


Section Load.
  Context {Cert Key : Type}.
  Variable from_der : string -> option Cert.
  Variable to_der : Cert -> option string.
  Variable from_pkcs8 : string -> option Key.
  Notation load := (load from_der from_pkcs8).

  Lemma load_text d c k d' : utf8_valid d = true ->
    load (cache_text d c k) d' =
      if String.eqb d d' then match from_pkcs8 k, from_der c with Some x, Some y => Some (x, y, c) | _, _ => None end else None.
  Proof.
    intros U. unfold ExCache.load, cached_of_text. rewrite text_utf8, text_raw by exact U. unfold cached_json.
    cbn [once filter fst snd String.eqb Ascii.eqb Bool.eqb ca_domain ca_key ca_cert]. rewrite !std_rt. destruct (String.eqb d d'); [|reflexivity].
    destruct (from_pkcs8 k); [|reflexivity]. destruct (from_der c); reflexivity.
  Qed.
  Lemma load_raw s d : parse_raw s = None -> load s d = None.
  Proof. intros H. unfold ExCache.load, cached_of_text. rewrite H. destruct (utf8_valid s); reflexivity. Qed.

  (** A file cut short is not read, except when nothing is missing. *)
  Lemma load_cut d c k n d' o : utf8_valid d = true -> load (str_take n (cache_text d c k)) d' = Some o -> str_take n (cache_text d c k) = cache_text d c k.
  Proof.
    intros U H. destruct (Nat.lt_ge_cases n (String.length (cache_text d c k))) as [L|L]; [|now apply take_all].
    rewrite load_raw in H; [discriminate|]. apply (cut_raw d c k _ (str_drop n (cache_text d c k)) U); [symmetry; apply take_drop|now apply drop_len].
  Qed.
  Lemma load_over d c k x d' : utf8_valid d = true -> load (cache_text d c k +:+ x +:+ "}") d' = None.
  Proof. intros U. apply load_raw, over_raw, U. Qed.
End Load.
