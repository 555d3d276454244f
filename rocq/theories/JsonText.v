(** serde_json's text format: [to_string]/[to_vec] and [from_str]/[from_slice].  External crate;
    the model follows serde_json 1.0 (ser.rs [format_escaped_str], de.rs, read.rs). *)
From Verif Require Import Base Utf8 Json.

Definition dquote : ascii := """".
Definition bslash : ascii := "\".

Definition hexdig (n : N) : ascii :=
  if (n <? 10)%N then chr (48 + n) else chr (87 + n).

(** ser.rs [format_escaped_str_contents]. *)
Definition escape_char (c : ascii) : string :=
  let b := byte c in
  if (b =? 34)%N then String bslash (s1 dquote)
  else if (b =? 92)%N then String bslash (s1 bslash)
  else if (b =? 8)%N then String bslash (s1 "b")
  else if (b =? 9)%N then String bslash (s1 "t")
  else if (b =? 10)%N then String bslash (s1 "n")
  else if (b =? 12)%N then String bslash (s1 "f")
  else if (b =? 13)%N then String bslash (s1 "r")
  else if (b <? 32)%N then
    String bslash (String "u" (String "0" (String "0"
      (String (hexdig (b / 16)) (s1 (hexdig (b mod 16)))))))
  else s1 c.
Fixpoint escape (s : string) : string :=
  match s with EmptyString => EmptyString | String c r => escape_char c +:+ escape r end.
Definition print_str (s : string) : string := String dquote (escape s +:+ s1 dquote).

(** Decimal digits of a natural number (itoa). *)
Fixpoint dec_go (fuel : nat) (n : N) (acc : string) : string :=
  match fuel with
  | O => acc
  | S f =>
      let acc' := String (chr (48 + n mod 10)) acc in
      if (n / 10 =? 0)%N then acc' else dec_go f (n / 10) acc'
  end.
Definition dec_N (n : N) : string := dec_go (S (N.size_nat n)) n EmptyString.
Definition dec_Z (z : Z) : string :=
  match z with
  | Z0 => "0"
  | Zpos p => dec_N (Npos p)
  | Zneg p => String "-" (dec_N (Npos p))
  end.

(** [serde_json::to_string] (compact formatter). *)
Fixpoint jprint (j : json) : string :=
  match j with
  | JNull => "null"
  | JBool true => "true"
  | JBool false => "false"
  | JInt z => dec_Z z
  | JFloat l => l
  | JStr s => print_str s
  | JArr l => String "[" (join "," (map jprint l) +:+ "]")
  | JObj m =>
      String "{" (join "," (map (fun kv => print_str (fst kv) +:+ String ":" (jprint (snd kv))) m) +:+ "}")
  end.

(* ------------------------------------------------------------------ parsing *)

Definition is_ws (c : ascii) : bool :=
  let b := byte c in ((b =? 32) || (b =? 9) || (b =? 10) || (b =? 13))%N.
Fixpoint skip_ws (s : string) : string :=
  match s with String c r => if is_ws c then skip_ws r else s | EmptyString => s end.

Definition is_digit (c : ascii) : bool := in_range 48 57 c.
(** Characters that can occur in a number. *)
Definition is_numchar (c : ascii) : bool :=
  is_digit c || Ascii.eqb c "-" || Ascii.eqb c "+" || Ascii.eqb c "." || Ascii.eqb c "e" || Ascii.eqb c "E".
Fixpoint take_num (s : string) : string * string :=
  match s with
  | String c r => if is_numchar c then let (a, b) := take_num r in (String c a, b) else (EmptyString, s)
  | EmptyString => (EmptyString, EmptyString)
  end.

Definition nonempty_digits (s : string) : bool :=
  match s with EmptyString => false | _ => str_all is_digit s end.
(** [0 | [1-9][0-9]*]. *)
Definition int_part_ok (s : string) : bool :=
  nonempty_digits s && match s with String c (String _ _) => negb (Ascii.eqb c "0") | _ => true end.
Fixpoint digits_val (acc : N) (s : string) : N :=
  match s with
  | String c r => digits_val (10 * acc + (byte c - 48)) r
  | EmptyString => acc
  end.
Fixpoint take_digits (s : string) : string * string :=
  match s with
  | String c r => if is_digit c then let (a, b) := take_digits r in (String c a, b) else (EmptyString, s)
  | EmptyString => (EmptyString, EmptyString)
  end.
(** Optional fraction, then optional exponent, then the end; the flag says if anything was there. *)
Definition exp_ok (s : string) : bool :=
  match s with
  | EmptyString => true
  | String c r =>
      (Ascii.eqb c "e" || Ascii.eqb c "E") &&
      match r with
      | String d r' => if Ascii.eqb d "+" || Ascii.eqb d "-" then nonempty_digits r' else nonempty_digits r
      | EmptyString => false
      end
  end.
Definition frac_exp_ok (s : string) : bool :=
  match s with
  | String c r =>
      if Ascii.eqb c "." then
        let (d, r') := take_digits r in nonempty_digits d && exp_ok r'
      else exp_ok s
  | EmptyString => true
  end.

(** A number token (de.rs [parse_integer], [parse_number]): integers in range become [JInt];
    everything else, and [-0], becomes a float.  Overflow of the exponent (an error in
    serde_json) is not modelled here (C120). *)
Definition num_of_token (t : string) : option json :=
  let (neg, body) := match t with
                     | String c r => if Ascii.eqb c "-" then (true, r) else (false, t)
                     | EmptyString => (false, t)
                     end in
  let (ip, fe) := take_digits body in
  if int_part_ok ip && frac_exp_ok fe then
    match fe with
    | EmptyString =>
        let n := digits_val 0 ip in
        let z := if neg then (- Z.of_N n)%Z else Z.of_N n in
        if (neg && (n =? 0)%N) || negb (int_ok z) then Some (JFloat t) else Some (JInt z)
    | _ => Some (JFloat t)
    end
  else None.

Definition hex_val (c : ascii) : option N :=
  if in_range 48 57 c then Some (byte c - 48)%N
  else if in_range 97 102 c then Some (byte c - 87)%N
  else if in_range 65 70 c then Some (byte c - 55)%N
  else None.
Definition hex4 (a b c d : ascii) : option N :=
  match hex_val a, hex_val b, hex_val c, hex_val d with
  | Some x, Some y, Some z, Some w => Some (((x * 16 + y) * 16 + z) * 16 + w)%N
  | _, _, _, _ => None
  end.

(** String contents after the opening quote: decoded contents and the rest after the closing
    quote (read.rs [parse_str_bytes], [parse_escape], [parse_unicode_escape]). *)
Fixpoint parse_chars (s : string) : option (string * string) :=
  match s with
  | EmptyString => None
  | String c r =>
      if Ascii.eqb c dquote then Some (EmptyString, r)
      else if Ascii.eqb c bslash then
        match r with
        | EmptyString => None
        | String e r1 =>
            let lit (x : ascii) :=
              match parse_chars r1 with Some (t, q) => Some (String x t, q) | None => None end in
            if Ascii.eqb e dquote then lit dquote
            else if Ascii.eqb e bslash then lit bslash
            else if Ascii.eqb e "/" then lit "/"%char
            else if Ascii.eqb e "b" then lit (chr 8)
            else if Ascii.eqb e "f" then lit (chr 12)
            else if Ascii.eqb e "n" then lit (chr 10)
            else if Ascii.eqb e "r" then lit (chr 13)
            else if Ascii.eqb e "t" then lit (chr 9)
            else if Ascii.eqb e "u" then
              match r1 with
              | String h1 (String h2 (String h3 (String h4 r2))) =>
                  match hex4 h1 h2 h3 h4 with
                  | None => None
                  | Some n =>
                      if ((56320 <=? n) && (n <=? 57343))%N then None
                      else if ((55296 <=? n) && (n <=? 56319))%N then
                        match r2 with
                        | String b1 (String u1 (String g1 (String g2 (String g3 (String g4 r3))))) =>
                            if Ascii.eqb b1 bslash && Ascii.eqb u1 "u" then
                              match hex4 g1 g2 g3 g4 with
                              | Some m =>
                                  if ((56320 <=? m) && (m <=? 57343))%N then
                                    match parse_chars r3 with
                                    | Some (t, q) =>
                                        Some (utf8_encode (65536 + (n - 55296) * 1024 + (m - 56320)) +:+ t, q)
                                    | None => None
                                    end
                                  else None
                              | None => None
                              end
                            else None
                        | _ => None
                        end
                      else
                        match parse_chars r2 with
                        | Some (t, q) => Some (utf8_encode n +:+ t, q)
                        | None => None
                        end
                  end
              | _ => None
              end
            else None
        end
      else if (byte c <? 32)%N then None
      else match parse_chars r with Some (t, q) => Some (String c t, q) | None => None end
  end.

(** A string literal: the decoded contents must be UTF-8 ([from_slice]; automatic for [from_str]). *)
Definition parse_str (s : string) : option (string * string) :=
  match parse_chars s with
  | Some (t, q) => if utf8_valid t then Some (t, q) else None
  | None => None
  end.

(** Recursive descent.  [fuel] bounds the recursion and is always sufficient at the top level;
    [depth] is serde_json's [remaining_depth] (128 initially; entering a container that would
    bring it to 0 is an error). *)
Fixpoint parse_value (fuel depth : nat) (s : string) {struct fuel} : option (json * string) :=
  match fuel with
  | O => None
  | S f =>
      match skip_ws s with
      | EmptyString => None
      | String c r =>
          if Ascii.eqb c dquote then
            match parse_str r with Some (t, q) => Some (JStr t, q) | None => None end
          else if Ascii.eqb c "[" then
            match depth with
            | S (S d) =>
                match skip_ws r with
                | String c' q => if Ascii.eqb c' "]" then Some (JArr [], q)
                                 else match parse_elems f (S d) r with
                                      | Some (l, q') => Some (JArr l, q')
                                      | None => None
                                      end
                | EmptyString => None
                end
            | _ => None
            end
          else if Ascii.eqb c "{" then
            match depth with
            | S (S d) =>
                match skip_ws r with
                | String c' q => if Ascii.eqb c' "}" then Some (JObj [], q)
                                 else match parse_members f (S d) r with
                                      | Some (l, q') => Some (JObj l, q')
                                      | None => None
                                      end
                | EmptyString => None
                end
            | _ => None
            end
          else if Ascii.eqb c "n" then
            match strip_prefix "ull" r with Some q => Some (JNull, q) | None => None end
          else if Ascii.eqb c "t" then
            match strip_prefix "rue" r with Some q => Some (JBool true, q) | None => None end
          else if Ascii.eqb c "f" then
            match strip_prefix "alse" r with Some q => Some (JBool false, q) | None => None end
          else
            let (t, q) := take_num (String c r) in
            match num_of_token t with Some n => Some (n, q) | None => None end
      end
  end
with parse_elems (fuel depth : nat) (s : string) {struct fuel} : option (list json * string) :=
  match fuel with
  | O => None
  | S f =>
      match parse_value f depth s with
      | None => None
      | Some (v, r) =>
          match skip_ws r with
          | String c q =>
              if Ascii.eqb c "]" then Some ([v], q)
              else if Ascii.eqb c "," then
                match parse_elems f depth q with
                | Some (l, q') => Some (v :: l, q')
                | None => None
                end
              else None
          | EmptyString => None
          end
      end
  end
with parse_members (fuel depth : nat) (s : string) {struct fuel} : option (list (string * json) * string) :=
  match fuel with
  | O => None
  | S f =>
      match skip_ws s with
      | String c r =>
          if Ascii.eqb c dquote then
            match parse_str r with
            | None => None
            | Some (k, r1) =>
                match skip_ws r1 with
                | String c1 r2 =>
                    if Ascii.eqb c1 ":" then
                      match parse_value f depth r2 with
                      | None => None
                      | Some (v, r3) =>
                          match skip_ws r3 with
                          | String c2 q =>
                              if Ascii.eqb c2 "}" then Some ([(k, v)], q)
                              else if Ascii.eqb c2 "," then
                                match parse_members f depth q with
                                | Some (l, q') => Some ((k, v) :: l, q')
                                | None => None
                                end
                              else None
                          | EmptyString => None
                          end
                      end
                    else None
                | EmptyString => None
                end
            end
          else None
      | EmptyString => None
      end
  end.

(** Text to the sequence of entries as written (before maps are built). *)
Definition parse_raw (s : string) : option json :=
  match parse_value (2 * String.length s + 2) 128 s with
  | Some (v, r) => match skip_ws r with EmptyString => Some v | _ => None end
  | None => None
  end.

(** [serde_json::from_slice::<Value>] / [from_str::<Value>]. *)
Definition json_of_text (s : string) : option json := option_map normalize (parse_raw s).

(** Text-level validity of a value (the invariants of Rust's [String] and [Number]). *)
Fixpoint jtext_ok (j : json) : bool :=
  match j with
  | JInt z => int_ok z
  | JFloat l => match num_of_token l with Some (JFloat _) => true | _ => false end
  | JStr s => utf8_valid s
  | JArr l => forallb jtext_ok l
  | JObj m => forallb (fun kv => utf8_valid (fst kv) && jtext_ok (snd kv)) m
  | _ => true
  end.

(** A value of type [serde_json::Value]. *)
Definition jwf (j : json) : bool := jtext_ok j && jsorted j.
