(** JSON text and UTF-8 (C95) *)
From Coq Require Import Lia ZArith.
From Verif Require Import Base BaseFacts Utf8 Utf8Facts Json JsonFacts JsonText JsonTextFacts Spec SpecJsonText GrammarFacts PfText.
From Verif Require Import PfGrammar.

(** C95: The JSON text readers accept exactly the texts of RFC 8259 with at most 127 levels of arrays and objects, and return what the text denotes: with a name given more than once, the last value counts. *)
Theorem c95_grammar : forall s v, json_of_text s = Some v <-> json_text 127 s v.
Proof. exact c95_grammar_pf. Qed.
Print Assumptions c95_grammar.

(** C95: No text denotes two values. *)
Theorem c95_unambiguous : forall n m s v v', json_text n s v -> json_text m s v' -> v = v'.
Proof. exact c95_unambiguous_pf. Qed.
Print Assumptions c95_unambiguous.

(** C95: The text readers accept exactly UTF-8 in strings: a byte string passes the check exactly when it is a sequence of encoded scalar values (RFC 3629). *)
Theorem c95_utf8 : forall s, utf8_valid s = true <-> exists l, utf8 s l.
Proof. exact c95_utf8_pf. Qed.
Print Assumptions c95_utf8.

Example c95_utf8_witness : utf8_valid (s1 (chr 226) +:+ s1 (chr 130) +:+ s1 (chr 172)) = true /\ utf8 (s1 (chr 226) +:+ s1 (chr 130) +:+ s1 (chr 172)) [8364%N].
Proof. exact c95_utf8_ex. Qed.

(** C95: A byte string is UTF-8 in at most one way. *)
Theorem c95_utf8_unique : forall s l l', utf8 s l -> utf8 s l' -> l = l'.
Proof. exact c95_utf8_unique_pf. Qed.
Print Assumptions c95_utf8_unique.

Example c95_sample_witness : json_text 127 sample (JObj [("a", JStr (utf8_encode 128512)); (utf8_encode 233 +:+ s1 (chr 10), JBool true)]).
Proof. exact c95_sample_ex. Qed.

Example c95_big_witness : json_text 127 "[18446744073709551615, 18446744073709551616, -9223372036854775808, -9223372036854775809]"
  (JArr [JInt 18446744073709551615; JFloat "18446744073709551616"; JInt (-9223372036854775808); JFloat "-9223372036854775809"]).
Proof. exact c95_big_ex. Qed.

(** Texts that denote nothing: leading zeros, a bare point, a trailing comma, a control character, a lone surrogate, single quotes, two values. *)
Example c95_rejects_witness : forall s v, In s ["01"; "1."; ".5"; "+1"; "[1,]"; "{""a"":1,}"; "{a:1}"; """" +:+ s1 (chr 10) +:+ """"; """\ud800"""; """\x41"""; "'a'"; "1 2"; "nul"; ""; s1 (chr 239) +:+ s1 (chr 187) +:+ s1 (chr 191) +:+ "1"] ->
  ~ json_text 127 s v.
Proof. exact c95_rejects_ex. Qed.
