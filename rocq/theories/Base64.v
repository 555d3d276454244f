(** Base64 as used by the library (crate base64 0.21, external): [BASE64_URL_SAFE_NO_PAD],
    [BASE64_STANDARD] (encoding) and [BASE64_STANDARD_NO_PAD] (decoding).  The engines reject
    characters outside the alphabet (including padding for the NO_PAD engines), a dangling
    single symbol, and non-zero trailing bits. *)
From Verif Require Import Base.

Inductive b64_alphabet := Std | UrlSafe.

(** Symbol for a 6-bit value. *)
Definition b64_sym (al : b64_alphabet) (n : N) : ascii :=
  if (n <? 26)%N then chr (65 + n)
  else if (n <? 52)%N then chr (71 + n)
  else if (n <? 62)%N then chr (n - 4)
  else if (n =? 62)%N then match al with Std => "+" | UrlSafe => "-" end
  else match al with Std => "/" | UrlSafe => "_" end.

Definition b64_val (al : b64_alphabet) (c : ascii) : option N :=
  let b := byte c in
  if ((65 <=? b) && (b <=? 90))%N then Some (b - 65)%N
  else if ((97 <=? b) && (b <=? 122))%N then Some (b - 71)%N
  else if ((48 <=? b) && (b <=? 57))%N then Some (b + 4)%N
  else if Ascii.eqb c (match al with Std => "+" | UrlSafe => "-" end) then Some 62%N
  else if Ascii.eqb c (match al with Std => "/" | UrlSafe => "_" end) then Some 63%N
  else None.

(** [Engine::encode]. *)
Fixpoint b64_encode (al : b64_alphabet) (pad : bool) (s : string) : string :=
  match s with
  | EmptyString => EmptyString
  | String a EmptyString =>
      String (b64_sym al (byte a / 4)) (String (b64_sym al (byte a mod 4 * 16))
        (if pad then "==" else EmptyString))
  | String a (String b EmptyString) =>
      String (b64_sym al (byte a / 4)) (String (b64_sym al (byte a mod 4 * 16 + byte b / 16))
        (String (b64_sym al (byte b mod 16 * 4)) (if pad then "=" else EmptyString)))
  | String a (String b (String c r)) =>
      String (b64_sym al (byte a / 4)) (String (b64_sym al (byte a mod 4 * 16 + byte b / 16))
        (String (b64_sym al (byte b mod 16 * 4 + byte c / 64)) (String (b64_sym al (byte c mod 64))
          (b64_encode al pad r))))
  end.

(** [Engine::decode] of a NO_PAD engine. *)
Fixpoint b64_decode (al : b64_alphabet) (s : string) : option string :=
  match s with
  | EmptyString => Some EmptyString
  | String _ EmptyString => None
  | String c0 (String c1 EmptyString) =>
      match b64_val al c0, b64_val al c1 with
      | Some x0, Some x1 =>
          if (x1 mod 16 =? 0)%N then Some (s1 (chr (x0 * 4 + x1 / 16))) else None
      | _, _ => None
      end
  | String c0 (String c1 (String c2 EmptyString)) =>
      match b64_val al c0, b64_val al c1, b64_val al c2 with
      | Some x0, Some x1, Some x2 =>
          if (x2 mod 4 =? 0)%N then
            Some (String (chr (x0 * 4 + x1 / 16)) (s1 (chr (x1 mod 16 * 16 + x2 / 4))))
          else None
      | _, _, _ => None
      end
  | String c0 (String c1 (String c2 (String c3 r))) =>
      match b64_val al c0, b64_val al c1, b64_val al c2, b64_val al c3 with
      | Some x0, Some x1, Some x2, Some x3 =>
          match b64_decode al r with
          | Some t => Some (String (chr (x0 * 4 + x1 / 16)) (String (chr (x1 mod 16 * 16 + x2 / 4))
                              (String (chr (x2 mod 4 * 64 + x3)) t)))
          | None => None
          end
      | _, _, _, _ => None
      end
  end.

(** [BASE64_URL_SAFE_NO_PAD.encode/decode], [BASE64_STANDARD.encode], [BASE64_STANDARD_NO_PAD.decode]. *)
Definition b64url_encode (s : string) : string := b64_encode UrlSafe false s.
Definition b64url_decode (s : string) : option string := b64_decode UrlSafe s.
Definition b64std_encode (s : string) : string := b64_encode Std true s.
Definition b64std_nopad_decode (s : string) : option string := b64_decode Std s.
