(** What base64 (RFC 4648) and application/x-www-form-urlencoded (WHATWG URL standard, section 5.1) text means, as
    definitions that do not refer to the decoders. *)
From Verif Require Import Base SpecJsonText.

(* ------------------------------------------------------------ base64 *)
(** RFC 4648, sections 4 and 5: the alphabets. *)
Definition std_alphabet : string := "ABCDEFGHIJKLMNOPQRSTUVWXYZabcdefghijklmnopqrstuvwxyz0123456789+/".
Definition url_alphabet : string := "ABCDEFGHIJKLMNOPQRSTUVWXYZabcdefghijklmnopqrstuvwxyz0123456789-_".
(** The bits of a byte string, the most significant bit of each byte first. *)
Definition octet_bits (c : ascii) : list bool := map (N.testbit (byte c)) [7; 6; 5; 4; 3; 2; 1; 0]%N.
Definition bits (s : string) : list bool := concat (map octet_bits (chars s)).
Definition group_value (g : list bool) : nat := fold_left (fun n (b : bool) => 2 * n + (if b then 1 else 0)) g 0.
(** The bits in groups of six, the last one filled up with zeros, each written as the symbol it numbers. *)
Definition b64_text (alphabet bytes text : string) : Prop :=
  exists zeros groups, zeros < 6 /\ bits bytes ++ repeat false zeros = concat groups
    /\ Forall2 (fun g c => length g = 6 /\ nth_error (chars alphabet) (group_value g) = Some c) groups (chars text).
(** Padding: equals signs. *)
Definition padding (s : string) : Prop := Forall (fun c => c = "="%char) (chars s).

(* ------------------------------------------------------------ repair of broken UTF-8 *)
(** Unicode, chapter 3, "U+FFFD substitution of maximal subparts". *)
Definition replacement : string := String (chr 239) (String (chr 191) (s1 (chr 189))).
Definition begins (b : string) : Prop := exists n s, encodes n (b +:+ s).
(** No character begins like this. *)
Definition stray (c : ascii) : Prop := ~ begins (s1 c).
(** The beginning of a character that does not go on. *)
Definition truncated (b r : string) : Prop :=
  b <> "" /\ begins b /\ (forall n, ~ encodes n b) /\ (forall c q, r = String c q -> ~ begins (b +:+ s1 c)).
Inductive repairs : string -> string -> Prop :=
| rep_end : repairs "" ""
| rep_char n s r t : encodes n s -> repairs r t -> repairs (s +:+ r) (s +:+ t)
| rep_stray c r t : stray c -> repairs r t -> repairs (String c r) (replacement +:+ t)
| rep_truncated b r t : truncated b r -> repairs r t -> repairs (b +:+ r) (replacement +:+ t).

(* ------------------------------------------------------------ forms *)
Definition escape_follows (r : string) : Prop :=
  exists h l x y q, r = String h (String l q) /\ hex_digit h x /\ hex_digit l y.
Inductive unescapes : string -> string -> Prop :=
| un_end : unescapes "" ""
| un_plus r t : unescapes r t -> unescapes (String "+" r) (String " " t)
| un_percent h l x y c r t : hex_digit h x -> hex_digit l y -> byte c = (16 * x + y)%N -> unescapes r t ->
    unescapes (String "%" (String h (String l r))) (String c t)
| un_bare r t : ~ escape_follows r -> unescapes r t -> unescapes (String "%" r) (String "%" t)
| un_plain c r t : c <> "+"%char -> c <> "%"%char -> unescapes r t -> unescapes (String c r) (String c t).
Definition form_chars (s t : string) : Prop := exists b, unescapes s b /\ repairs b t.
Definition without (c : ascii) (s : string) : Prop := ~ In c (chars s).
Inductive field : string -> string * string -> Prop :=
| field_both k v k' v' : without "=" k -> form_chars k k' -> form_chars v v' -> field (k +:+ "=" +:+ v) (k', v')
| field_name k k' : without "=" k -> form_chars k k' -> field k (k', "").
(** Fields between ampersands; empty ones do not count. *)
Inductive form_text : string -> list (string * string) -> Prop :=
| form_nil : form_text "" []
| form_last s p : s <> "" -> without "&" s -> field s p -> form_text s [p]
| form_skip r l : form_text r l -> form_text ("&" +:+ r) l
| form_more s p r l : s <> "" -> without "&" s -> field s p -> form_text r l -> form_text (s +:+ "&" +:+ r) (p :: l).

(** Writing a form (URL standard, section 5.2). *)
Definition kept_chars : string := "*-._0123456789ABCDEFGHIJKLMNOPQRSTUVWXYZabcdefghijklmnopqrstuvwxyz".
Definition upper_digit (c : ascii) (n : nat) : Prop := nth_error (chars "0123456789ABCDEF") n = Some c.
Inductive escapes : string -> string -> Prop :=
| es_end : escapes "" ""
| es_kept c r t : In c (chars kept_chars) -> escapes r t -> escapes (String c r) (String c t)
| es_space r t : escapes r t -> escapes (String " " r) (String "+" t)
| es_other c h l x y r t : ~ In c (chars kept_chars) -> c <> " "%char -> upper_digit h x -> upper_digit l y -> nat_of_ascii c = 16 * x + y ->
    escapes r t -> escapes (String c r) (String "%" (String h (String l t))).
Inductive form_written : list (string * string) -> string -> Prop :=
| fw_none : form_written [] ""
| fw_one k v k' v' : escapes k k' -> escapes v v' -> form_written [(k, v)] (k' +:+ "=" +:+ v')
| fw_more k v k' v' p l t : escapes k k' -> escapes v v' -> form_written (p :: l) t -> form_written ((k, v) :: p :: l) (k' +:+ "=" +:+ v' +:+ "&" +:+ t).
