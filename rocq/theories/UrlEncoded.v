(** application/x-www-form-urlencoded (crates form_urlencoded and serde_urlencoded, external), as
    used by /repo/src/core/authorization_request/mod.rs:176-180,237-240 and
    /repo/src/core/response/mod.rs:31-50,102-107. *)
From Verif Require Import Base Utf8.

(** form_urlencoded [byte_serialized_unchanged]: [*-._0-9A-Z_a-z]. *)
Definition form_safe (c : ascii) : bool :=
  let b := byte c in
  ((b =? 42) || (b =? 45) || (b =? 46) || ((48 <=? b) && (b <=? 57)) || ((65 <=? b) && (b <=? 90))
   || (b =? 95) || ((97 <=? b) && (b <=? 122)))%N.

Definition hex_upper (n : N) : ascii := if (n <? 10)%N then chr (48 + n) else chr (55 + n).

(** [byte_serialize]. *)
Definition form_enc_char (c : ascii) : string :=
  if form_safe c then s1 c
  else if Ascii.eqb c " " then "+"
  else String "%" (String (hex_upper (byte c / 16)) (s1 (hex_upper (byte c mod 16)))).
Fixpoint form_enc (s : string) : string :=
  match s with EmptyString => EmptyString | String c r => form_enc_char c +:+ form_enc r end.

Definition unhex (c : ascii) : option N :=
  if in_range 48 57 c then Some (byte c - 48)%N
  else if in_range 97 102 c then Some (byte c - 87)%N
  else if in_range 65 70 c then Some (byte c - 55)%N
  else None.

(** [decode]: ['+'] becomes a space, valid percent escapes are decoded, everything else stays;
    the UTF-8 repair is [utf8_lossy]. *)
Fixpoint form_dec_bytes (s : string) : string :=
  match s with
  | EmptyString => EmptyString
  | String c r =>
      if Ascii.eqb c "+" then String " " (form_dec_bytes r)
      else if Ascii.eqb c "%" then
        match r with
        | String h (String l r') =>
            match unhex h, unhex l with
            | Some x, Some y => String (chr (16 * x + y)) (form_dec_bytes r')
            | _, _ => String c (form_dec_bytes r)
            end
        | _ => String c (form_dec_bytes r)
        end
      else String c (form_dec_bytes r)
  end.
Definition form_dec (s : string) : string := utf8_lossy (form_dec_bytes s).

(** [form_urlencoded::parse]: segments between ['&'], empty ones skipped, split at the first ['=']. *)
Definition form_pair (seg : string) : string * string :=
  match split_once "=" seg with
  | Some (k, v) => (form_dec k, form_dec v)
  | None => (form_dec seg, EmptyString)
  end.
Definition form_parse (s : string) : list (string * string) :=
  map form_pair (filter (fun seg => negb (String.eqb seg EmptyString)) (split_all "&" s)).

(** [Serializer::append_pair] over a list of pairs. *)
Definition form_serialize (l : list (string * string)) : string :=
  join "&" (map (fun kv => form_enc (fst kv) +:+ String "=" (form_enc (snd kv))) l).
