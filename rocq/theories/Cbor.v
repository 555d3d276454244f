(** The part of CBOR (RFC 8949; crate ciborium, external) used by
    /repo/src/core/iso_18013_7/mod.rs: null, byte strings, text strings and arrays.  Encoding uses
    the shortest header, as ciborium does; decoding accepts any header. *)
From Verif Require Import Base Utf8 Sha256.

Inductive cbor : Type :=
| CNull
| CBytes (b : string)
| CText (t : string)
| CArr (l : list cbor).

Local Open Scope N_scope.

Definition be_string (n : nat) (x : N) : string := of_bytes (be_bytes n x).

(** Header of major type [m] with argument [n]. *)
Definition cbor_head (m n : N) : string :=
  if n <? 24 then s1 (chr (m * 32 + n))
  else if n <? 256 then String (chr (m * 32 + 24)) (be_string 1 n)
  else if n <? 65536 then String (chr (m * 32 + 25)) (be_string 2 n)
  else if n <? 4294967296 then String (chr (m * 32 + 26)) (be_string 4 n)
  else String (chr (m * 32 + 27)) (be_string 8 n).

Definition slen (s : string) : N := N.of_nat (String.length s).

(** [ciborium::into_writer]. *)
Fixpoint cbor_encode (v : cbor) : string :=
  match v with
  | CNull => s1 (chr 246)
  | CBytes b => cbor_head 2 (slen b) +:+ b
  | CText t => cbor_head 3 (slen t) +:+ t
  | CArr l => cbor_head 4 (N.of_nat (length l)) +:+ sconcat (map cbor_encode l)
  end.

(* ------------------------------------------------------------ decoding *)
Fixpoint take_n (n : nat) (s : string) : option (string * string) :=
  match n with
  | O => Some (EmptyString, s)
  | S n' => match s with
            | EmptyString => None
            | String c r => match take_n n' r with Some (a, b) => Some (String c a, b) | None => None end
            end
  end.

Fixpoint be_val (acc : N) (s : string) : N :=
  match s with EmptyString => acc | String c r => be_val (acc * 256 + byte c) r end.

Definition read_arg (k : nat) (r : string) : option (N * string) :=
  match take_n k r with Some (a, q) => Some (be_val 0 a, q) | None => None end.

(** Major type and argument.  Indefinite lengths, reserved values and floats (major type 7 with an argument of two
    bytes or more) are rejected: used only to read back values that [cbor_encode] wrote. *)
Definition read_head (s : string) : option (N * N * string) :=
  match s with
  | EmptyString => None
  | String c r =>
      let m := byte c / 32 in
      let a := byte c mod 32 in
      let fin x := match x with Some (n, q) => Some (m, n, q) | None => None end in
      if a <? 24 then Some (m, a, r)
      else if a =? 24 then fin (read_arg 1 r)
      else if m =? 7 then None
      else if a =? 25 then fin (read_arg 2 r)
      else if a =? 26 then fin (read_arg 4 r)
      else if a =? 27 then fin (read_arg 8 r)
      else None
  end.

(** A byte or text string body of length [n]; a length beyond the input is an error. *)
Definition read_body (n : N) (s : string) : option (string * string) :=
  if slen s <? n then None else take_n (N.to_nat n) s.

(** A header as ciborium reads it; [None] is an indefinite length. *)
Inductive header : Type :=
| HPositive (n : N) | HNegative (n : N)
| HBytes (n : option N) | HText (n : option N) | HArray (n : option N) | HMap (n : option N)
| HTag (n : N) | HSimple (n : N) | HFloat | HBreak.
Definition header_of (m : N) (n : option N) : option header :=
  if m =? 2 then Some (HBytes n)
  else if m =? 3 then Some (HText n)
  else if m =? 4 then Some (HArray n)
  else if m =? 5 then Some (HMap n)
  else match n with
       | None => None
       | Some n => if m =? 0 then Some (HPositive n) else if m =? 1 then Some (HNegative n) else Some (HTag n)
       end.
(** [ciborium_ll::Decoder::pull]. *)
Definition pull (s : string) : option (header * string) :=
  match s with
  | EmptyString => None
  | String c r =>
      let m := byte c / 32 in
      let a := byte c mod 32 in
      let fin x := match x with
                   | Some (n, q) => match (if m =? 7 then Some (if a <? 25 then HSimple n else HFloat) else header_of m (Some n)) with
                                    | Some h => Some (h, q)
                                    | None => None
                                    end
                   | None => None
                   end in
      if a <? 24 then fin (Some (a, r))
      else if a =? 24 then fin (read_arg 1 r)
      else if a =? 25 then fin (read_arg 2 r)
      else if a =? 26 then fin (read_arg 4 r)
      else if a =? 27 then fin (read_arg 8 r)
      else if a =? 31 then match (if m =? 7 then Some HBreak else header_of m None) with Some h => Some (h, r) | None => None end
      else None
  end.

(** [ciborium_ll::Segments]: the pieces of a string of indefinite length, up to the break that ends it; pieces may
    themselves be of indefinite length, [depth] of them being open.  Each piece of a text must be UTF-8. *)
Fixpoint read_segments (text : bool) (fuel depth : nat) (s : string) : option (string * string) :=
  match fuel with
  | O => None
  | S f =>
      match pull s with
      | Some (HBreak, r) => match depth with O => Some (EmptyString, r) | S d => read_segments text f d r end
      | Some (h, r) =>
          match (if text then match h with HText n => Some n | _ => None end
                 else match h with HBytes n => Some n | _ => None end) with
          | None => None
          | Some None => read_segments text f (S depth) r
          | Some (Some n) =>
              match read_body n r with
              | Some (t, q) =>
                  if negb text || utf8_valid t then
                    match read_segments text f depth q with Some (u, z) => Some (t +:+ u, z) | None => None end
                  else None
              | None => None
              end
          end
      | None => None
      end
  end.
(** The string after its header. *)
Definition read_string (text : bool) (n : option N) (s : string) : option (string * string) :=
  match n with
  | Some n => match read_body n s with
              | Some (t, q) => if negb text || utf8_valid t then Some (t, q) else None
              | None => None
              end
  | None => read_segments text (S (String.length s)) 0 s
  end.

(** [ciborium::from_reader::<Value>] restricted to the four kinds of values above and to definite lengths: it is applied
    to serialised handovers only (iso mod.rs:294-299). *)
Fixpoint cbor_parse (fuel : nat) (s : string) : option (cbor * string) :=
  match fuel with
  | O => None
  | S f =>
      match read_head s with
      | None => None
      | Some (m, n, r) =>
          if m =? 2 then
            match read_body n r with Some (b, q) => Some (CBytes b, q) | None => None end
          else if m =? 3 then
            match read_body n r with
            | Some (t, q) => if utf8_valid t then Some (CText t, q) else None
            | None => None
            end
          else if m =? 4 then
            if slen r <? n then None
            else match (fix items (k : nat) (s : string) : option (list cbor * string) :=
                          match k with
                          | O => Some ([], s)
                          | S k' => match cbor_parse f s with
                                    | None => None
                                    | Some (v, q) =>
                                        match items k' q with
                                        | Some (l, q') => Some (v :: l, q')
                                        | None => None
                                        end
                                    end
                          end) (N.to_nat n) r with
                 | Some (l, q) => Some (CArr l, q)
                 | None => None
                 end
          else if (m =? 7) && (n =? 22) then Some (CNull, r)
          else None
      end
  end.

Definition cbor_decode (s : string) : option cbor :=
  match cbor_parse (S (String.length s)) s with Some (v, _) => Some v | None => None end.
