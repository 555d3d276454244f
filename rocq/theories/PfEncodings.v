From Coq Require Import Lia ZifyBool ZifyN ZifyNat.
From Verif Require Import Base BaseFacts Utf8 Utf8Facts Base64 Base64Facts UrlEncoded UrlEncodedFacts SpecJsonText SpecEncodings GrammarFacts PfX509.
Ltac Zify.zify_post_hook ::= Z.div_mod_to_equations.

(* ------------------------------------------------------------ base64 *)
Definition b2n (b : bool) : N := if b then 1 else 0.
Lemma byte_bits a0 a1 a2 a3 a4 a5 a6 a7 :
  byte (Ascii a0 a1 a2 a3 a4 a5 a6 a7) = (128 * b2n a7 + 64 * b2n a6 + 32 * b2n a5 + 16 * b2n a4 + 8 * b2n a3 + 4 * b2n a2 + 2 * b2n a1 + b2n a0)%N.
Proof. destruct a0, a1, a2, a3, a4, a5, a6, a7; reflexivity. Qed.
Lemma octet_bits_is a0 a1 a2 a3 a4 a5 a6 a7 : octet_bits (Ascii a0 a1 a2 a3 a4 a5 a6 a7) = [a7; a6; a5; a4; a3; a2; a1; a0].
Proof. destruct a0, a1, a2, a3, a4, a5, a6, a7; reflexivity. Qed.
Lemma group_value_is a b c d e f :
  group_value [a; b; c; d; e; f] = N.to_nat (32 * b2n a + 16 * b2n b + 8 * b2n c + 4 * b2n d + 2 * b2n e + b2n f).
Proof. destruct a, b, c, d, e, f; reflexivity. Qed.
Lemma b2n_le b : (b2n b <= 1)%N.
Proof. destruct b; cbn; lia. Qed.
Definition alpha (al : b64_alphabet) : string := match al with Std => std_alphabet | UrlSafe => url_alphabet end.
Definition sym_ok (al : b64_alphabet) (n : N) : bool :=
  match nth_error (chars (alpha al)) (N.to_nat n) with Some c => Ascii.eqb c (b64_sym al n) | None => false end.
Lemma sym_all al : forallb (sym_ok al) all64 = true.
Proof. destruct al; vm_compute; reflexivity. Qed.
Lemma sym_at al n : (n < 64)%N -> nth_error (chars (alpha al)) (N.to_nat n) = Some (b64_sym al n).
Proof.
  intros H. pose proof (proj1 (forallb_forall (sym_ok al) all64) (sym_all al) n (all64_in n H)) as X. unfold sym_ok in X.
  destruct (nth_error _ _) as [c|]; [|discriminate]. apply Ascii.eqb_eq in X. now subst.
Qed.
Lemma sym_group al a b c d e f n : n = (32 * b2n a + 16 * b2n b + 8 * b2n c + 4 * b2n d + 2 * b2n e + b2n f)%N ->
  length [a; b; c; d; e; f] = 6 /\ nth_error (chars (alpha al)) (group_value [a; b; c; d; e; f]) = Some (b64_sym al n).
Proof.
  intros ->. split; [reflexivity|]. rewrite group_value_is. apply sym_at.
  pose proof (b2n_le a); pose proof (b2n_le b); pose proof (b2n_le c); pose proof (b2n_le d); pose proof (b2n_le e); pose proof (b2n_le f). lia.
Qed.
Ltac bounds := repeat match goal with b : bool |- _ => pose proof (b2n_le b); generalize dependent (b2n b); clear b; intros end.
Lemma encode_text al s : b64_text (alpha al) s (b64_encode al false s).
Proof.
  induction s as [|a|a b|a b c r (z & gs & Hz & E & F)] using string_ind3.
  - exists 0, []. split; [lia|]. split; [reflexivity|constructor].
  - destruct a as [a0 a1 a2 a3 a4 a5 a6 a7]. exists 4, [[a7; a6; a5; a4; a3; a2]; [a1; a0; false; false; false; false]]. split; [lia|]. unfold s1; cbn [b64_encode]. rewrite byte_bits.
    split; [unfold bits, chars; cbn [list_ascii_of_string map concat]; now rewrite octet_bits_is|]. unfold chars at 2. cbn [list_ascii_of_string].
    constructor; [apply sym_group; bounds; lia|]. constructor; [apply sym_group; cbn [b2n]; bounds; lia|constructor].
  - destruct a as [a0 a1 a2 a3 a4 a5 a6 a7], b as [b0 b1 b2 b3 b4 b5 b6 b7].
    exists 2, [[a7; a6; a5; a4; a3; a2]; [a1; a0; b7; b6; b5; b4]; [b3; b2; b1; b0; false; false]]. split; [lia|]. unfold s1; cbn [b64_encode]. rewrite !byte_bits.
    split; [unfold bits, chars; cbn [list_ascii_of_string map concat]; now rewrite !octet_bits_is|]. unfold chars at 2. cbn [list_ascii_of_string].
    constructor; [apply sym_group; bounds; lia|]. constructor; [apply sym_group; bounds; lia|]. constructor; [apply sym_group; cbn [b2n]; bounds; lia|constructor].
  - destruct a as [a0 a1 a2 a3 a4 a5 a6 a7], b as [b0 b1 b2 b3 b4 b5 b6 b7], c as [c0 c1 c2 c3 c4 c5 c6 c7].
    exists z, ([a7; a6; a5; a4; a3; a2] :: [a1; a0; b7; b6; b5; b4] :: [b3; b2; b1; b0; c7; c6] :: [c5; c4; c3; c2; c1; c0] :: gs). split; [exact Hz|].
    cbn [b64_encode]. rewrite !byte_bits.
    split; [unfold bits, chars in *; cbn [list_ascii_of_string map concat]; rewrite !octet_bits_is; cbn [app]; now rewrite E|].
    unfold chars at 2. cbn [list_ascii_of_string].
    constructor; [apply sym_group; bounds; lia|]. constructor; [apply sym_group; bounds; lia|]. constructor; [apply sym_group; bounds; lia|]. constructor; [apply sym_group; bounds; lia|exact F].
Qed.
Lemma concat6 {P : list bool -> ascii -> Prop} gs cs : Forall2 (fun g c => length g = 6 /\ P g c) gs cs -> length (concat gs) = 6 * length gs.
Proof. induction 1 as [|g c gs cs [H _] _ IH]; [reflexivity|]. cbn [concat]. rewrite app_length, H, IH. cbn [length]. lia. Qed.
Lemma app_len {A} (a b c d : list A) : length a = length c -> a ++ b = c ++ d -> a = c /\ b = d.
Proof.
  revert c. induction a as [|x a IH]; intros [|y c] L E; try discriminate L; [auto|]. injection E as -> E. injection L as L. destruct (IH c L E) as [-> ->]. auto.
Qed.
Lemma groups_unique al gs gs' cs cs' : concat gs = concat gs' ->
  Forall2 (fun g c => length g = 6 /\ nth_error (chars al) (group_value g) = Some c) gs cs ->
  Forall2 (fun g c => length g = 6 /\ nth_error (chars al) (group_value g) = Some c) gs' cs' -> cs = cs'.
Proof.
  intros E F. revert gs' cs' E. induction F as [|g c gs cs [L H] F IH]; intros gs' cs' E F'; inversion F' as [|g' c' gs2 cs2 [L' H'] F2]; subst; cbn [concat] in E.
  - reflexivity.
  - destruct g' as [|? g']; [discriminate L'|discriminate E].
  - destruct g as [|? g]; [discriminate L|discriminate E].
  - assert (X : g = g' /\ concat gs = concat gs2).
    { apply app_len; [congruence|exact E]. }
    destruct X as [<- X]. f_equal; [congruence|]. eapply IH; eassumption.
Qed.
Lemma chars_inj s s' : chars s = chars s' -> s = s'.
Proof. unfold chars. intros H. rewrite <- (string_of_list_ascii_of_string s), <- (string_of_list_ascii_of_string s'). now rewrite H. Qed.
Lemma text_unique al s t t' : b64_text al s t -> b64_text al s t' -> t = t'.
Proof.
  intros (z & gs & Hz & E & F) (z' & gs' & Hz' & E' & F'). apply chars_inj.
  assert (z = z').
  { pose proof (concat6 _ _ F) as L. pose proof (concat6 _ _ F') as L'. rewrite <- E in L. rewrite <- E' in L'. rewrite app_length, repeat_length in L, L'. lia. }
  subst z'. eapply groups_unique; [|exact F|exact F']. congruence.
Qed.
Lemma encode_iff al s t : b64_encode al false s = t <-> b64_text (alpha al) s t.
Proof. split; [intros <-; apply encode_text|]. intros H. eapply text_unique; [apply encode_text|exact H]. Qed.
Lemma decode_iff al s t : b64_decode al t = Some s <-> b64_text (alpha al) s t.
Proof. rewrite <- encode_iff. split; [intros H; symmetry; now apply b64_canonical|intros <-; apply b64_rt]. Qed.
(** C97: The base64url reader accepts exactly the canonical texts of RFC 4648 without padding, and returns the bytes they stand for; the writer writes that text. *)
Lemma c97_base64url_pf : forall s t, (b64url_decode t = Some s <-> b64_text url_alphabet s t) /\ (b64url_encode s = t <-> b64_text url_alphabet s t).
Proof. intros s t. split; [apply (decode_iff UrlSafe)|apply (encode_iff UrlSafe)]. Qed.
Lemma padding_iff p : str_all (Ascii.eqb "=") p = true <-> padding p.
Proof.
  unfold padding, chars. induction p as [|c p IH]; cbn [str_all list_ascii_of_string]; [split; [constructor|reflexivity]|]. rewrite andb_true_iff, IH, Ascii.eqb_eq.
  split; [intros [<- H]; now constructor|intros H; inversion H; auto].
Qed.
Lemma no_equals al s : has_char "=" (b64_encode al false s) = false.
Proof. apply (has_char_all _ (b64_char al)); [destruct al; reflexivity|apply b64_encode_chars]. Qed.
(** C97: Certificates are written as standard base64 with padding to a multiple of four symbols, and read from the same symbols with any number of equals signs behind them. *)
Lemma c97_certificates_pf : forall s x,
  (b64std_encode s = x <-> exists t p, x = t +:+ p /\ b64_text std_alphabet s t /\ padding p /\ String.length p < 4 /\ String.length x mod 4 = 0)
  /\ (b64std_nopad_decode (trim_end "=" x) = Some s <-> exists t p, x = t +:+ p /\ b64_text std_alphabet s t /\ padding p).
Proof.
  intros s x. split.
  - assert (P : exists p, b64std_encode s = b64_encode Std false s +:+ p /\ padding p /\ String.length p < 4 /\ String.length (b64std_encode s) mod 4 = 0).
    { unfold b64std_encode. induction s as [|a|a b|a b c r (p & E & Hp & L & M)] using string_ind3.
      - exists "". repeat split; [constructor|cbn; lia].
      - exists "==". repeat split; [repeat constructor|cbn; lia].
      - exists "=". repeat split; [repeat constructor|cbn; lia].
      - exists p. cbn [b64_encode]. rewrite E. repeat split; auto. cbn [String.length]. rewrite <- E. clear - M. lia. }
    destruct P as (p & E & Hp & L & M). split.
    + intros <-. exists (b64_encode Std false s), p. split; [exact E|]. split; [apply (encode_iff Std); reflexivity|auto].
    + intros (t & p' & -> & T & Hp' & L' & M'). apply (encode_iff Std) in T. rewrite T in E. rewrite E in *. f_equal.
      assert (Q : String.length p = String.length p') by (rewrite slen_app in M, M'; lia). clear - Hp Hp' Q. unfold padding, chars in *.
      revert p' Hp' Q. induction p as [|c p IH]; intros [|c' p'] H' Q; try discriminate Q; [reflexivity|]. cbn [list_ascii_of_string] in *. inversion Hp; inversion H'; subst. injection Q as Q. f_equal. auto.
  - split.
    + intros H. apply (decode_iff Std) in H. destruct (PfX509.trim_end_spec "=" x) as (p & E & A). exists (trim_end "=" x), p. split; [exact E|]. split; [exact H|]. now apply padding_iff.
    + intros (t & p & -> & T & Hp). pose proof T as T'. apply (encode_iff Std) in T'. apply padding_iff in Hp. rewrite <- T', trim_end_app_pad; [|apply no_equals|exact Hp].
      apply b64_rt.
Qed.

(* ------------------------------------------------------------ broken UTF-8 *)
Fixpoint matches (p : list (N * N)) (s : string) : Prop :=
  match p, s with
  | [], EmptyString => True
  | (lo, hi) :: p, String c r => (lo <= byte c <= hi)%N /\ matches p r
  | _, _ => False
  end.
Lemma matches_go p : forall s r, matches p s -> utf8_go p (s +:+ r) = utf8_valid r.
Proof.
  induction p as [|[lo hi] p IH]; intros [|c s] r H; try destruct H; [reflexivity|]. cbn [String.append]. apply Bool.eq_iff_eq_true. rewrite go_byte, (IH s r) by assumption. tauto.
Qed.
Lemma matches_len p : forall s, matches p s -> String.length s = length p.
Proof. induction p as [|[lo hi] p IH]; intros [|c s] H; try destruct H; [reflexivity|]. cbn. f_equal. now apply IH. Qed.
Lemma encodes_matches n s : encodes n s -> exists c p b, s = String c b /\ utf8_start c = Some p /\ matches p b.
Proof.
  intros [Sc E]. remember (map byte (chars s)) as bs eqn:Eb. revert Sc Eb.
  destruct E as [n H|n a b H E Hb|n a b c H E Hb Hc|n a b c d H E Hb Hc Hd]; intros Sc Eb;
    repeat (destruct s as [|? s]; [discriminate Eb|cbn [map chars list_ascii_of_string] in Eb; try discriminate Eb; apply cons_eq in Eb as [? Eb]]); (destruct s; [|discriminate Eb]);
    unfold scalar in Sc.
  - exists a, [], "". split; [reflexivity|]. split; [apply start_1; lia|exact I].
  - eexists _, _, _. split; [reflexivity|]. split; [apply start_2; lia|]. cbn [matches]. lia.
  - eexists _, _, _. split; [reflexivity|]. split; [apply start_3; lia|]. cbn [matches]. split; [|split; [lia|exact I]].
    destruct (N.eqb_spec (byte a0) 224), (N.eqb_spec (byte a0) 237); lia.
  - eexists _, _, _. split; [reflexivity|]. split; [apply start_4; lia|]. cbn [matches]. split; [|split; [lia|split; [lia|exact I]]].
    destruct (N.eqb_spec (byte a0) 240), (N.eqb_spec (byte a0) 244); lia.
Qed.
Lemma matches_encodes c p b : utf8_start c = Some p -> matches p b -> exists n, encodes n (String c b).
Proof.
  intros S M. assert (V : utf8_valid (String c b) = true).
  { rewrite (valid_go c b p S), <- (sapp_nil_r b). now rewrite (matches_go p b "" M). }
  apply valid_encodes in V as (n & s & q & E & _ & En & _). destruct (encodes_matches n s En) as (c' & p' & b' & -> & S' & M').
  injection E as -> E. assert (p = p') by congruence. subst p'. exists n. apply matches_len in M, M'. assert (q = "") as ->; [|now rewrite sapp_nil_r in E; subst].
  rewrite E, slen_app in M. destruct q; [reflexivity|]. cbn in M. lia.
Qed.
Fixpoint pmatches (p : list (N * N)) (s : string) : Prop :=
  match p, s with
  | _, EmptyString => True
  | (lo, hi) :: p, String c r => (lo <= byte c <= hi)%N /\ pmatches p r
  | [], _ => False
  end.
Lemma pm_nil p : pmatches p "".
Proof. destruct p as [|[? ?] p]; exact I. Qed.
Lemma matches_prefix p : forall b s, matches p (b +:+ s) -> pmatches p b.
Proof. induction p as [|[lo hi] p IH]; intros [|c b] s H; cbn in *; auto. destruct H. eauto. Qed.
Lemma prefix_matches p : (forall lo hi, In (lo, hi) p -> lo <= hi /\ lo < 256)%N -> forall b, pmatches p b -> exists s, matches p (b +:+ s).
Proof.
  induction p as [|[lo hi] p IH]; intros R b H.
  - destruct b; [exists ""; exact I|destruct H].
  - assert (R' : forall lo hi, In (lo, hi) p -> (lo <= hi /\ lo < 256)%N) by (intros; apply R; now right). destruct (R lo hi (or_introl eq_refl)).
    destruct b as [|c b].
    + destruct (IH R' "" (pm_nil p)) as (s & M). exists (String (chr lo) s). cbn in *. rewrite byte_chr by assumption. split; [lia|exact M].
    + destruct H as [Hc H]. destruct (IH R' b H) as (s & M). exists s. cbn. auto.
Qed.
Lemma start_ranges c p : utf8_start c = Some p -> forall lo hi, In (lo, hi) p -> (lo <= hi /\ lo < 256)%N.
Proof.
  intros S lo hi. apply start_spec in S.
  repeat (destruct S as [(_ & ->)|S]; [cbn [In]; intros H; repeat (destruct H as [[= <- <-]|H]; [lia|]); destruct H|]).
  destruct S as (_ & ->). cbn [In]; intros H; repeat (destruct H as [[= <- <-]|H]; [lia|]); destruct H.
Qed.
Lemma begins_iff c b : begins (String c b) <-> exists p, utf8_start c = Some p /\ pmatches p b.
Proof.
  split.
  - intros (n & s & E). apply encodes_matches in E as (c' & p & b' & E & S & M). injection E as <- <-. exists p. split; [exact S|]. eapply matches_prefix, M.
  - intros (p & S & P). destruct (prefix_matches p (start_ranges c p S) b P) as (s & M). destruct (matches_encodes c p (b +:+ s) S M) as (n & E). exists n, s. exact E.
Qed.
Lemma lossy_run d : forall p acc b r, matches d b -> p <> [] -> lossy_go (d ++ p) acc (b +:+ r) = lossy_go p (acc +:+ b) r.
Proof.
  induction d as [|[lo hi] d IH]; intros p acc [|c b] r M Hp; [now rewrite sapp_nil_r|destruct M|destruct M|]. destruct M as [Hc M].
  cbn [app String.append lossy_go]. unfold in_range. assert (X : ((lo <=? byte c)%N && (byte c <=? hi)%N) = true) by (apply andb_true_iff; rewrite !N.leb_le; lia). rewrite X.
  destruct (d ++ p) as [|q ps] eqn:E; [apply app_eq_nil in E as [_ E]; now destruct Hp|]. rewrite <- E, (IH p (acc +:+ s1 c) b r M Hp). now rewrite sapp_assoc.
Qed.
Lemma in_range_true lo hi c : (lo <= byte c <= hi)%N <-> in_range lo hi c = true.
Proof. unfold in_range. rewrite andb_true_iff, !N.leb_le. tauto. Qed.
Lemma lossy_full p : forall acc b r, matches p b -> p <> [] -> lossy_go p acc (b +:+ r) = acc +:+ b +:+ lossy_go [] "" r.
Proof.
  induction p as [|[lo hi] p IH]; intros acc [|c b] r M Hp; [now destruct Hp|destruct M|destruct M|]. destruct M as [Hc M].
  cbn [String.append lossy_go]. apply in_range_true in Hc. rewrite Hc. destruct p as [|q p].
  - destruct b; [|destruct M]. reflexivity.
  - rewrite (IH _ b r M ltac:(discriminate)). now rewrite sapp_assoc.
Qed.
Lemma lossy_char n s r : encodes n s -> utf8_lossy (s +:+ r) = s +:+ utf8_lossy r.
Proof.
  intros E. destruct (encodes_matches n s E) as (c & p & b & -> & S & M). unfold utf8_lossy. cbn [String.append lossy_go]. rewrite S.
  destruct p as [|q p]; [destruct b; [reflexivity|destruct M]|]. now rewrite (lossy_full _ (s1 c) b r M ltac:(discriminate)).
Qed.
Lemma lossy_stray c r : stray c -> utf8_lossy (String c r) = replacement +:+ utf8_lossy r.
Proof.
  intros H. unfold utf8_lossy. cbn [lossy_go]. destruct (utf8_start c) as [p|] eqn:S; [|reflexivity]. destruct H. apply begins_iff. exists p. split; [exact S|]. apply pm_nil.
Qed.
Lemma pmatches_split p : forall b, pmatches p b -> exists d q, p = d ++ q /\ matches d b.
Proof.
  induction p as [|[lo hi] p IH]; intros [|c b] H.
  - exists [], []. split; [reflexivity|exact I].
  - destruct H.
  - exists [], ((lo, hi) :: p). split; [reflexivity|exact I].
  - destruct H as [Hc H]. destruct (IH b H) as (d & q & -> & M). exists ((lo, hi) :: d), q. split; [reflexivity|]. cbn. auto.
Qed.
Lemma matches_pmatches d : forall b q s, matches d b -> pmatches q s -> pmatches (d ++ q) (b +:+ s).
Proof.
  induction d as [|[lo hi] d IH]; intros [|c b] q s M P; [exact P|destruct M|destruct M|]. destruct M as [Hc M]. cbn. auto.
Qed.
Lemma lossy_truncated b r : truncated b r -> utf8_lossy (b +:+ r) = replacement +:+ utf8_lossy r.
Proof.
  intros (Ne & B & NE & Stop). destruct b as [|c b]; [now destruct Ne|]. apply begins_iff in B as (p & S & P). destruct (pmatches_split p b P) as (d & q & -> & M).
  assert (Hq : q <> []) by (intros ->; rewrite app_nil_r in S; destruct (matches_encodes c d b S M) as (n & E); now apply NE in E).
  unfold utf8_lossy at 1. cbn [String.append lossy_go]. rewrite S. destruct (d ++ q) as [|x l] eqn:E; [apply app_eq_nil in E as [_ E]; now destruct Hq|]. rewrite <- E in *.
  rewrite (lossy_run d q (s1 c) b r M Hq). destruct q as [|[lo hi] q]; [now destruct Hq|]. destruct r as [|c' r]; [reflexivity|].
  cbn [lossy_go]. destruct (in_range lo hi c') eqn:I; [|reflexivity]. exfalso. apply (Stop c' r eq_refl). apply begins_iff. exists (d ++ (lo, hi) :: q). split; [exact S|].
  apply matches_pmatches; [exact M|]. cbn. apply in_range_true in I. split; [exact I|]. apply pm_nil.
Qed.
Lemma repairs_lossy s t : repairs s t -> utf8_lossy s = t.
Proof.
  induction 1 as [|n s r t E _ IH|c r t H _ IH|b r t H _ IH].
  - reflexivity.
  - now rewrite (lossy_char n s r E), IH.
  - now rewrite (lossy_stray c r H), IH.
  - now rewrite (lossy_truncated b r H), IH.
Qed.
(** The longest matching prefix. *)
Lemma longest p : forall s, (exists b r, s = b +:+ r /\ matches p b)
  \/ exists d q b r, p = d ++ q /\ q <> [] /\ s = b +:+ r /\ matches d b /\ (forall c r', r = String c r' -> forall lo hi q', q = (lo, hi) :: q' -> in_range lo hi c = false).
Proof.
  induction p as [|[lo hi] p IH]; intros s.
  - left. exists "", s. split; [reflexivity|exact I].
  - destruct s as [|c s].
    + right. exists [], ((lo, hi) :: p), "", "". repeat split; [discriminate|]. discriminate.
    + destruct (in_range lo hi c) eqn:E.
      * apply in_range_true in E. destruct (IH s) as [(b & r & -> & M)|(d & q & b & r & -> & Hq & -> & M & N)].
        -- left. exists (String c b), r. split; [reflexivity|]. cbn. auto.
        -- right. exists ((lo, hi) :: d), q, (String c b), r. split; [reflexivity|]. split; [exact Hq|]. split; [reflexivity|]. split; [cbn; auto|exact N].
      * right. exists [], ((lo, hi) :: p), "", (String c s). split; [reflexivity|]. split; [discriminate|]. split; [reflexivity|]. split; [exact I|].
        intros c' r' [= <- <-] lo' hi' q' [= <- <- <-]. exact E.
Qed.
Lemma repairs_total k : forall s, String.length s <= k -> exists t, repairs s t.
Proof.
  induction k as [|k IH]; intros [|c s] L; try (exists ""; constructor); cbn in L; [lia|]. destruct (utf8_start c) as [p|] eqn:S.
  - destruct (longest p s) as [(b & r & -> & M)|(d & q & b & r & -> & Hq & -> & M & N)]; rewrite slen_app in L; (destruct (IH r ltac:(lia)) as (t & R)).
    + destruct (matches_encodes c p b S M) as (n & E). exists (String c b +:+ t). change (String c (b +:+ r)) with (String c b +:+ r). now apply (rep_char n).
    + exists (replacement +:+ t). change (String c (b +:+ r)) with (String c b +:+ r). apply rep_truncated; [|exact R]. split; [discriminate|]. split; [|split].
      * apply begins_iff. exists (d ++ q). split; [exact S|]. rewrite <- (sapp_nil_r b). apply matches_pmatches; [exact M|]. apply pm_nil.
      * intros n E. apply encodes_matches in E as (c' & p' & b' & E & S' & M'). injection E as <- <-. assert (p' = d ++ q) by congruence. subst p'.
        apply matches_len in M, M'. rewrite app_length in M'. destruct q; [now destruct Hq|]. cbn in M'. lia.
      * intros c' r' -> B. cbn [String.append] in B. apply begins_iff in B as (p' & S' & P). assert (p' = d ++ q) by congruence. subst p'.
        destruct q as [|[lo hi] q]; [now destruct Hq|]. specialize (N c' r' eq_refl lo hi q eq_refl). clear - M P N.
        revert b M P. induction d as [|[l h] d IH]; intros [|x b] M P; [|destruct M|destruct M|destruct M as [Hc M]; cbn in P; destruct P; now apply (IH b)].
        cbn in P. destruct P as [P _]. apply in_range_true in P. congruence.
  - destruct (IH s ltac:(lia)) as (t & R). exists (replacement +:+ t). apply rep_stray; [|exact R]. intros B. apply begins_iff in B as (p & S' & _). congruence.
Qed.
Lemma repairs_iff s t : repairs s t <-> utf8_lossy s = t.
Proof. split; [apply repairs_lossy|]. intros <-. destruct (repairs_total _ s (le_n _)) as (t & R). now rewrite (repairs_lossy s t R). Qed.
(** C96: Text decoded from a form is valid UTF-8: characters stay, and each maximal piece of a broken character becomes U+FFFD. *)
Lemma c96_repair_pf : forall s t, utf8_lossy s = t <-> repairs s t.
Proof. intros s t. symmetry. apply repairs_iff. Qed.

(* ------------------------------------------------------------ forms *)
Lemma unhex_iff c d : unhex c = Some d <-> hex_digit c d.
Proof. exact (hex_val_iff c d). Qed.
Lemma escape_follows_iff h l q : escape_follows (String h (String l q)) <-> exists x y, unhex h = Some x /\ unhex l = Some y.
Proof.
  split.
  - intros (h' & l' & x & y & q' & [= <- <- <-] & A & B). exists x, y. rewrite !unhex_iff. auto.
  - intros (x & y & A & B). apply unhex_iff in A, B. exists h, l, x, y, q. auto.
Qed.
Lemma hex_lt c d : hex_digit c d -> (d < 16)%N.
Proof. unfold hex_digit. lia. Qed.
Lemma unescapes_dec s t : unescapes s t -> form_dec_bytes s = t.
Proof.
  induction 1 as [|r t _ IH|h l x y c r t Hh Hl Hc _ IH|r t N _ IH|c r t Np Nq _ IH].
  - reflexivity.
  - cbn. now rewrite IH.
  - cbn [form_dec_bytes]. change (Ascii.eqb "%" "+") with false. change (Ascii.eqb "%" "%") with true. cbv iota. apply unhex_iff in Hh, Hl. rewrite Hh, Hl, IH, <- Hc, chr_byte. reflexivity.
  - cbn [form_dec_bytes]. change (Ascii.eqb "%" "+") with false. change (Ascii.eqb "%" "%") with true. cbv iota. destruct r as [|h [|l q]]; [now rewrite IH|now rewrite IH|].
    destruct (unhex h) as [x|] eqn:Hh; [|now rewrite IH]. destruct (unhex l) as [y|] eqn:Hl; [|now rewrite IH]. destruct N. apply escape_follows_iff. eauto.
  - cbn [form_dec_bytes]. apply Ascii.eqb_neq in Np, Nq. now rewrite Np, Nq, IH.
Qed.
Lemma unescapes_total k : forall s, String.length s <= k -> exists t, unescapes s t.
Proof.
  induction k as [|k IH]; intros [|c s] L; try (exists ""; constructor); cbn in L; [lia|]. destruct (Ascii.eqb_spec c "+") as [->|Np].
  - destruct (IH s ltac:(lia)) as (t & U). exists (String " " t). now constructor.
  - destruct (Ascii.eqb_spec c "%") as [->|Nq].
    + destruct s as [|h [|l q]].
      * destruct (IH "" ltac:(cbn; lia)) as (t & U). exists (String "%" t). apply un_bare; [|exact U]. intros (? & ? & ? & ? & ? & [=] & _).
      * destruct (IH (String h "") ltac:(cbn in *; lia)) as (t & U). exists (String "%" t). apply un_bare; [|exact U]. intros (? & ? & ? & ? & ? & [=] & _).
      * destruct (unhex h) as [x|] eqn:Hh; [destruct (unhex l) as [y|] eqn:Hl|].
        -- destruct (IH q ltac:(cbn in *; lia)) as (t & U). exists (String (chr (16 * x + y)) t). apply unhex_iff in Hh, Hl.
           apply (un_percent h l x y); auto. apply byte_chr. apply hex_lt in Hh, Hl. lia.
        -- destruct (IH (String h (String l q)) ltac:(cbn in *; lia)) as (t & U). exists (String "%" t). apply un_bare; [|exact U]. intros E. apply escape_follows_iff in E as (? & ? & E1 & E2). congruence.
        -- destruct (IH (String h (String l q)) ltac:(cbn in *; lia)) as (t & U). exists (String "%" t). apply un_bare; [|exact U]. intros E. apply escape_follows_iff in E as (? & ? & E1 & E2). congruence.
    + destruct (IH s ltac:(lia)) as (t & U). exists (String c t). now constructor.
Qed.
Lemma form_chars_iff s t : form_chars s t <-> form_dec s = t.
Proof.
  unfold form_dec. split.
  - intros (b & U & R). apply unescapes_dec in U. apply repairs_iff in R. now rewrite U.
  - intros <-. destruct (unescapes_total _ s (le_n _)) as (b & U). exists b. split; [exact U|]. apply repairs_iff. now rewrite (unescapes_dec s b U).
Qed.
Lemma without_iff c s : without c s <-> has_char c s = false.
Proof.
  unfold without, chars. induction s as [|d s IH]; cbn [list_ascii_of_string has_char In]; [intuition|]. rewrite orb_false_iff, <- IH. destruct (Ascii.eqb_spec c d) as [->|N].
  - split; [intros H; destruct H; now left|intros [[=] _]].
  - split; [intros H; split; [reflexivity|intros X; apply H; now right]|intros [_ H] [X|X]; [now subst|auto]].
Qed.
Lemma field_iff s p : field s p <-> form_pair s = p.
Proof.
  unfold form_pair. split.
  - intros H. destruct H as [k v k' v' W K V|k k' W K]; apply without_iff in W.
    + assert (E : split_once "=" (k +:+ "=" +:+ v) = Some (k, v)) by (apply split_once_some; auto). rewrite E. apply form_chars_iff in K, V. now rewrite K, V.
    + apply split_once_none in W. rewrite W. apply form_chars_iff in K. now rewrite K.
  - intros <-. destruct (split_once "=" s) as [[k v]|] eqn:E.
    + apply split_once_some in E as [-> W]. change (String "=" v) with ("=" +:+ v). apply field_both; [now apply without_iff|now apply form_chars_iff|now apply form_chars_iff].
    + apply split_once_none in E. apply field_name; [now apply without_iff|now apply form_chars_iff].
Qed.
Lemma form_text_parse s l : form_text s l -> form_parse s = l.
Proof.
  induction 1 as [|s p Ne W F|r l _ IH|s p r l Ne W F _ IH]; unfold form_parse in *.
  - reflexivity.
  - apply without_iff in W. rewrite (split_all_nochar _ _ W). cbn [filter]. apply String.eqb_neq in Ne. rewrite Ne. cbn [negb map]. apply field_iff in F. now rewrite F.
  - cbn [String.append split_all]. change (Ascii.eqb "&" "&") with true. cbv iota. cbn [filter]. exact IH.
  - apply without_iff in W. change (s +:+ "&" +:+ r) with (s +:+ String "&" r). rewrite (split_all_cons _ _ _ W). cbn [filter]. apply String.eqb_neq in Ne. rewrite Ne. cbn [negb map]. apply field_iff in F. now rewrite F, IH.
Qed.
Lemma form_text_total k : forall s, String.length s <= k -> exists l, form_text s l.
Proof.
  induction k as [|k IH]; intros s L; [destruct s; [exists []; constructor|cbn in L; lia]|].
  destruct (split_once "&" s) as [[a b]|] eqn:E.
  - apply split_once_some in E as [-> W]. rewrite slen_app in L. cbn [String.length] in L. destruct (IH b ltac:(lia)) as (l & F). destruct a as [|c a].
    + exists l. now apply form_skip.
    + exists (form_pair (String c a) :: l). apply (form_more (String c a)); [discriminate|now apply without_iff|now apply field_iff|exact F].
  - apply split_once_none in E. destruct s as [|c s]; [exists []; constructor|]. exists [form_pair (String c s)]. apply form_last; [discriminate|now apply without_iff|now apply field_iff].
Qed.
Definition digit_at (n : N) : option ascii := nth_error (chars "0123456789ABCDEF") (N.to_nat n).
Definition enc_right (c : ascii) : bool :=
  if existsb (Ascii.eqb c) (chars kept_chars) then String.eqb (form_enc_char c) (s1 c)
  else if Ascii.eqb c " " then String.eqb (form_enc_char c) "+"
  else match digit_at (N.of_nat (nat_of_ascii c) / 16), digit_at (N.of_nat (nat_of_ascii c) mod 16) with
       | Some h, Some l => String.eqb (form_enc_char c) (String "%" (String h (s1 l)))
       | _, _ => false
       end.
Lemma enc_right_all c : enc_right c = true.
Proof.
  assert (K : forallb enc_right all_ascii = true) by (vm_compute; reflexivity). rewrite forallb_forall in K. apply K, all_ascii_in.
Qed.
Lemma kept_in c : existsb (Ascii.eqb c) (chars kept_chars) = true <-> In c (chars kept_chars).
Proof.
  rewrite existsb_exists. split; [intros (x & I & E); apply Ascii.eqb_eq in E; now subst|]. intros I. exists c. split; [exact I|apply Ascii.eqb_refl].
Qed.
Lemma enc_escapes s : escapes s (form_enc s).
Proof.
  induction s as [|c r IH]; [constructor|]. cbn [form_enc]. pose proof (enc_right_all c) as R. unfold enc_right in R.
  destruct (existsb (Ascii.eqb c) (chars kept_chars)) eqn:K.
  - apply String.eqb_eq in R. rewrite R. apply es_kept; [now apply kept_in|exact IH].
  - assert (N1 : ~ In c (chars kept_chars)) by (intros I; apply kept_in in I; congruence).
    destruct (Ascii.eqb c " ") eqn:Sp.
    + apply Ascii.eqb_eq in Sp. subst c. apply String.eqb_eq in R. rewrite R. apply es_space, IH.
    + apply Ascii.eqb_neq in Sp. destruct (digit_at (N.of_nat (nat_of_ascii c) / 16)) as [h|] eqn:H; [|discriminate R].
      destruct (digit_at (N.of_nat (nat_of_ascii c) mod 16)) as [l|] eqn:L; [|discriminate R]. apply String.eqb_eq in R. rewrite R.
      apply (es_other c h l _ _ r (form_enc r) N1 Sp H L); [|exact IH].
      rewrite N2Nat.inj_div, N2Nat.inj_mod, Nat2N.id. change (N.to_nat 16) with 16. apply Nat.div_mod. discriminate.
Qed.
Lemma upper_lt h x : upper_digit h x -> x < 16.
Proof. intros H. assert (L : nth_error (chars "0123456789ABCDEF") x <> None) by congruence. apply nth_error_Some in L. exact L. Qed.
Lemma escapes_unique s t : escapes s t -> forall t', escapes s t' -> t = t'.
Proof.
  induction 1 as [|c r t I _ IH|r t _ IH|c h l x y r t Ni Ns Hh Hl E _ IH]; intros t' H'.
  - now inversion H'.
  - inversion H' as [|c' r' t1 I' E'|r' t1 E'|c' h' l' x' y' r' t1 Ni']; subst; [now rewrite (IH _ E')| |contradiction].
    apply kept_in in I. vm_compute in I. discriminate I.
  - inversion H' as [|c' r' t1 I' E'|r' t1 E'|c' h' l' x' y' r' t1 Ni' Ns']; subst; [|now rewrite (IH _ E')|now contradiction Ns'].
    apply kept_in in I'. vm_compute in I'. discriminate I'.
  - inversion H' as [|c' r' t1 I' E'|r' t1 E'|c' h' l' x' y' r' t1 Ni' Ns' Hh' Hl' E1 E']; subst; [contradiction|now contradiction Ns|].
    rewrite (IH _ E'). pose proof (upper_lt _ _ Hh) as B1. pose proof (upper_lt _ _ Hl) as B2. pose proof (upper_lt _ _ Hh') as B3. pose proof (upper_lt _ _ Hl') as B4.
    assert (x' = x) as -> by lia. assert (y' = y) as -> by lia. unfold upper_digit in *. congruence.
Qed.
Lemma serialize_more k v p l : form_serialize ((k, v) :: p :: l) = form_enc k +:+ "=" +:+ form_enc v +:+ "&" +:+ form_serialize (p :: l).
Proof.
  unfold form_serialize.
  assert (J : forall x y z, join "&" (x :: y :: z) = x +:+ "&" +:+ join "&" (y :: z)) by reflexivity.
  change (map ?f ((k, v) :: p :: l)) with (f (k, v) :: f p :: map f l). rewrite J. cbn [fst snd map].
  rewrite !sapp_assoc. reflexivity.
Qed.
(** C96: The form writer writes exactly what the URL standard says for the fields: spaces as plus signs, all but letters, digits and four other
    characters as upper-case escapes. *)
Lemma c96_written_pf : forall l t, form_serialize l = t <-> form_written l t.
Proof.
  assert (W : forall l, form_written l (form_serialize l)).
  { induction l as [|[k v] [|p l] IH].
    - constructor.
    - apply fw_one; apply enc_escapes.
    - rewrite serialize_more. apply fw_more; [apply enc_escapes|apply enc_escapes|exact IH]. }
  assert (Q : forall l t, form_written l t -> t = form_serialize l).
  { induction 1 as [|k v k' v' K V|k v k' v' p l t K V _ IH].
    - reflexivity.
    - unfold form_serialize. cbn [map join fst snd]. now rewrite (escapes_unique _ _ K _ (enc_escapes k)), (escapes_unique _ _ V _ (enc_escapes v)).
    - subst t. rewrite (escapes_unique _ _ K _ (enc_escapes k)), (escapes_unique _ _ V _ (enc_escapes v)). symmetry. apply serialize_more. }
  intros l t. split; [intros <-; apply W|]. intros H. symmetry. now apply Q.
Qed.
Example c96_written_ex : form_written [("a b", "c=d/"); ("_*", "")] "a+b=c%3Dd%2F&_*=".
Proof. apply c96_written_pf. vm_compute. reflexivity. Qed.

(** C96: The form reader finds in a query string or request body exactly the fields it has by the URL standard. *)
Lemma c96_form_pf : forall s l, form_parse s = l <-> form_text s l.
Proof.
  intros s l. split; [|apply form_text_parse]. intros <-. destruct (form_text_total _ s (le_n _)) as (l & F). now rewrite (form_text_parse s l F).
Qed.

Example c96_form_ex : form_text "a=1+2&&b=%C3%A9%zz&c&=x%" [("a", "1 2"); ("b", utf8_encode 233 +:+ "%zz"); ("c", ""); ("", "x%")].
Proof. apply c96_form_pf. vm_compute. reflexivity. Qed.
(** A broken character in the middle: the lead byte of a three-byte character and one continuation byte become one U+FFFD. *)
Example c96_repair_ex : repairs ("a" +:+ s1 (chr 226) +:+ s1 (chr 130) +:+ "b" +:+ s1 (chr 192) +:+ s1 (chr 128)) ("a" +:+ replacement +:+ "b" +:+ replacement +:+ replacement).
Proof. apply repairs_iff. vm_compute. reflexivity. Qed.
Example c97_base64url_ex : b64url_decode "_-8" = Some (s1 (chr 255) +:+ s1 (chr 239)) /\ b64_text url_alphabet (s1 (chr 255) +:+ s1 (chr 239)) "_-8"
  /\ b64url_decode "_-9" = None /\ b64url_decode "_-8=" = None /\ b64url_decode "A" = None.
Proof. split; [reflexivity|]. split; [apply (c97_base64url_pf (s1 (chr 255) +:+ s1 (chr 239)) "_-8"); reflexivity|]. repeat split. Qed.
Example c97_certificates_ex : b64std_encode "ab" = "YWI=" /\ b64std_nopad_decode (trim_end "=" "YWI==") = Some "ab".
Proof. split; reflexivity. Qed.
