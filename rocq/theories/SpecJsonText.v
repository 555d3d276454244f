(** What a JSON text (RFC 8259) denotes, and what UTF-8 (RFC 3629) is, as inductive definitions that do not refer to
    the parser. *)
From Coq Require Import ZArith.
From Verif Require Import Base Json.

Definition chars (s : string) : list ascii := list_ascii_of_string s.

(* ------------------------------------------------------------ UTF-8 *)
(** Unicode scalar values: code points without the surrogates. *)
Definition scalar (n : N) : Prop := (n < 55296 \/ 57343 < n < 1114112)%N.
(** RFC 3629, section 3: the bytes of one scalar value. *)
Inductive encoded : N -> list N -> Prop :=
| enc1 n : (n < 128)%N -> encoded n [n]
| enc2 n a b : (128 <= n < 2048)%N -> (n = a * 64 + b)%N -> (b < 64)%N -> encoded n [192 + a; 128 + b]%N
| enc3 n a b c : (2048 <= n < 65536)%N -> (n = (a * 64 + b) * 64 + c)%N -> (b < 64)%N -> (c < 64)%N ->
    encoded n [224 + a; 128 + b; 128 + c]%N
| enc4 n a b c d : (65536 <= n)%N -> (n = ((a * 64 + b) * 64 + c) * 64 + d)%N -> (b < 64)%N -> (c < 64)%N -> (d < 64)%N ->
    encoded n [240 + a; 128 + b; 128 + c; 128 + d]%N.
Definition encodes (n : N) (s : string) : Prop := scalar n /\ encoded n (map byte (chars s)).
(** UTF-8 text, with the scalar values it consists of. *)
Inductive utf8 : string -> list N -> Prop :=
| utf8_nil : utf8 "" []
| utf8_cons n s r l : encodes n s -> utf8 r l -> utf8 (s +:+ r) (n :: l).

(* ------------------------------------------------------------ JSON *)
(** Insignificant whitespace: spaces, tabs, line feeds, carriage returns. *)
Definition blank (s : string) : Prop := Forall (fun c => In (byte c) [32; 9; 10; 13]%N) (chars s).

(** Numbers: [ minus ] int [ frac ] [ exp ]. *)
Definition digits (s : string) : Prop := Forall (fun c => (48 <= byte c <= 57)%N) (chars s).
Definition decimal (s : string) : N := fold_left (fun n c => 10 * n + (byte c - 48))%N (chars s) 0%N.
Definition sign (s : string) : Prop := s = "" \/ s = "-".
Definition whole (s : string) : Prop :=
  s = "0" \/ exists c r, s = String c r /\ (49 <= byte c <= 57)%N /\ digits r.
Definition fraction (s : string) : Prop := s = "" \/ exists r, s = "." +:+ r /\ digits r /\ r <> "".
Definition exponent (s : string) : Prop :=
  s = "" \/ exists e sg r, s = e +:+ sg +:+ r /\ (e = "e" \/ e = "E") /\ (sg = "" \/ sg = "+" \/ sg = "-") /\ digits r /\ r <> "".
(** The integer with the given sign and digits. *)
Definition signed (sg w : string) (z : Z) : Prop :=
  sg = "" /\ z = Z.of_N (decimal w) \/ sg = "-" /\ z = (- Z.of_N (decimal w))%Z.
(** Integers between [-2^63] and [2^64 - 1], but not "-0", are integers; other numbers stay as written. *)
Inductive number : string -> json -> Prop :=
| num_int sg w z : sign sg -> whole w -> signed sg w z -> (- 2 ^ 63 <= z < 2 ^ 64)%Z -> sg +:+ w <> "-0" ->
    number (sg +:+ w) (JInt z)
| num_big sg w z : sign sg -> whole w -> signed sg w z -> (z < - 2 ^ 63 \/ 2 ^ 64 <= z)%Z ->
    number (sg +:+ w) (JFloat (sg +:+ w))
| num_zero : number "-0" (JFloat "-0")
| num_float sg w f e : sign sg -> whole w -> fraction f -> exponent e -> f +:+ e <> "" ->
    number (sg +:+ w +:+ f +:+ e) (JFloat (sg +:+ w +:+ f +:+ e)).

(** Strings, between the quotes. *)
Definition quote : ascii := """".
Definition backslash : ascii := "\".
Definition short_escapes : list (ascii * N) :=
  [("""", 34); ("\", 92); ("/", 47); ("b", 8); ("f", 12); ("n", 10); ("r", 13); ("t", 9)]%char%N.
Definition hex_digit (c : ascii) (d : N) : Prop :=
  (d < 10 /\ byte c = 48 + d \/ 10 <= d < 16 /\ (byte c = 87 + d \/ byte c = 55 + d))%N.
Definition hex (s : string) (n : N) : Prop :=
  exists a b c d w x y z, s = String a (String b (String c (String d "")))
    /\ hex_digit a w /\ hex_digit b x /\ hex_digit c y /\ hex_digit d z /\ (n = w * 4096 + x * 256 + y * 16 + z)%N.
Inductive spells : string -> string -> Prop :=
| sp_end : spells "" ""
| sp_plain c r t : (32 <= byte c)%N -> c <> quote -> c <> backslash -> spells r t -> spells (String c r) (String c t)
| sp_short e c r t : In (e, byte c) short_escapes -> spells r t -> spells (String backslash (String e r)) (String c t)
| sp_unicode h n s r t : hex h n -> encodes n s -> spells r t ->
    spells (String backslash ("u" +:+ h +:+ r)) (s +:+ t)
| sp_pair h n h' m s r t : hex h n -> hex h' m -> (55296 <= n <= 56319)%N -> (56320 <= m <= 57343)%N ->
    encodes (65536 + (n - 55296) * 1024 + (m - 56320)) s -> spells r t ->
    spells (String backslash ("u" +:+ h +:+ String backslash ("u" +:+ h' +:+ r))) (s +:+ t).
Definition string_literal (lit t : string) : Prop :=
  exists raw l, lit = String quote (raw +:+ String quote "") /\ spells raw t /\ utf8 t l.

(** The value under [k] in a list of members: that of the last one. *)
Definition last_value (k : string) (l : list (string * json)) (v : json) : Prop :=
  exists before after, l = before ++ (k, v) :: after /\ ~ In k (map fst after).

(** Values with at most [n] levels of arrays and objects. *)
Inductive denotes : nat -> string -> json -> Prop :=
| de_null n : denotes n "null" JNull
| de_true n : denotes n "true" (JBool true)
| de_false n : denotes n "false" (JBool false)
| de_number n s v : number s v -> denotes n s v
| de_string n s t : string_literal s t -> denotes n s (JStr t)
| de_empty_array n w : blank w -> denotes (S n) ("[" +:+ w +:+ "]") (JArr [])
| de_array n s l : elements n s l -> denotes (S n) ("[" +:+ s +:+ "]") (JArr l)
| de_empty_object n w : blank w -> denotes (S n) ("{" +:+ w +:+ "}") (JObj [])
| de_object n s l o : members n s l -> keys_sorted o = true -> (forall k v, obj_get k o = Some v <-> last_value k l v) ->
    denotes (S n) ("{" +:+ s +:+ "}") (JObj o)
with elements : nat -> string -> list json -> Prop :=
| el_last n w s w' v : blank w -> denotes n s v -> blank w' -> elements n (w +:+ s +:+ w') [v]
| el_more n w s w' v r l : blank w -> denotes n s v -> blank w' -> elements n r l ->
    elements n (w +:+ s +:+ w' +:+ "," +:+ r) (v :: l)
with members : nat -> string -> list (string * json) -> Prop :=
| me_last n w lit k w1 w2 s v w' : blank w -> string_literal lit k -> blank w1 -> blank w2 -> denotes n s v -> blank w' ->
    members n (w +:+ lit +:+ w1 +:+ ":" +:+ w2 +:+ s +:+ w') [(k, v)]
| me_more n w lit k w1 w2 s v w' r l : blank w -> string_literal lit k -> blank w1 -> blank w2 -> denotes n s v -> blank w' ->
    members n r l -> members n (w +:+ lit +:+ w1 +:+ ":" +:+ w2 +:+ s +:+ w' +:+ "," +:+ r) ((k, v) :: l).
Scheme denotes_mut := Induction for denotes Sort Prop
  with elements_mut := Induction for elements Sort Prop
  with members_mut := Induction for members Sort Prop.

(** A JSON text: one value, with whitespace around it. *)
Definition json_text (levels : nat) (s : string) (v : json) : Prop :=
  exists w t w', s = w +:+ t +:+ w' /\ blank w /\ blank w' /\ denotes levels t v.
