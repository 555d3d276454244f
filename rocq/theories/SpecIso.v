(** Specification vocabulary for ISO 18013-7 session transcripts and JWK thumbprints: the encoding rules of
    RFC 8949 for the values used, and the canonical members of RFC 7638. *)
From Verif Require Import Base Utf8 Json JsonText Cbor SpecRequest.

Local Open Scope N_scope.

(** A big-endian number. *)
Definition number (s : string) : N :=
  fold_left (fun acc c => acc * 256 + byte c) (list_ascii_of_string s) 0.

(** The head of a data item of major type [m] and argument [n], in the shortest form. *)
Inductive head (m n : N) : string -> Prop :=
| head_0 : n < 24 -> head m n (s1 (chr (32 * m + n)))
| head_1 (s : string) : 24 <= n < 2 ^ 8 -> String.length s = 1%nat -> number s = n ->
    head m n (String (chr (32 * m + 24)) s)
| head_2 (s : string) : 2 ^ 8 <= n < 2 ^ 16 -> String.length s = 2%nat -> number s = n ->
    head m n (String (chr (32 * m + 25)) s)
| head_4 (s : string) : 2 ^ 16 <= n < 2 ^ 32 -> String.length s = 4%nat -> number s = n ->
    head m n (String (chr (32 * m + 26)) s)
| head_8 (s : string) : 2 ^ 32 <= n < 2 ^ 64 -> String.length s = 8%nat -> number s = n ->
    head m n (String (chr (32 * m + 27)) s).

(** A head of definite length, not necessarily the shortest: the argument in the first byte or in the 1, 2, 4
    or 8 bytes after it. *)
Inductive any_head (m n : N) : string -> Prop :=
| any_0 : n < 24 -> any_head m n (s1 (chr (32 * m + n)))
| any_1 (s : string) : String.length s = 1%nat -> number s = n -> any_head m n (String (chr (32 * m + 24)) s)
| any_2 (s : string) : String.length s = 2%nat -> number s = n -> any_head m n (String (chr (32 * m + 25)) s)
| any_4 (s : string) : String.length s = 4%nat -> number s = n -> any_head m n (String (chr (32 * m + 26)) s)
| any_8 (s : string) : String.length s = 8%nat -> number s = n -> any_head m n (String (chr (32 * m + 27)) s).

(** Null or undefined, in the one-byte or the two-byte form. *)
Inductive unit_item : string -> Prop :=
| unit_short n : n = 22 \/ n = 23 -> unit_item (s1 (chr (32 * 7 + n)))
| unit_long n : n = 22 \/ n = 23 -> unit_item (String (chr (32 * 7 + 24)) (s1 (chr n))).

Definition len (s : string) : N := N.of_nat (String.length s).

(** [encodes v s]: [s] is the (unique) shortest encoding of [v]. *)
Inductive encodes : cbor -> string -> Prop :=
| enc_null : encodes CNull (s1 (chr 246))
| enc_bytes b h : head 2 (len b) h -> encodes (CBytes b) (h +:+ b)
| enc_text t h : head 3 (len t) h -> encodes (CText t) (h +:+ t)
| enc_arr l h s : head 4 (N.of_nat (length l)) h -> encodes_all l s -> encodes (CArr l) (h +:+ s)
with encodes_all : list cbor -> string -> Prop :=
| enc_nil : encodes_all [] EmptyString
| enc_cons v l s s' : encodes v s -> encodes_all l s' -> encodes_all (v :: l) (s +:+ s').

(** Texts of fewer than 2^64 bytes: all that fit in an address space. *)
Definition short (s : string) : Prop := len s < 2 ^ 64.
Definition short_opt (s : option string) : Prop := match s with Some b => short b | None => True end.

(** Items whose text strings are UTF-8. *)
Fixpoint text_items (v : cbor) : Prop :=
  match v with
  | CText t => utf8_valid t = true
  | CArr l => fold_right (fun x P => text_items x /\ P) True l
  | _ => True
  end.

(** Items read as the bytes [b]: a byte string, or an array of no integers. *)
Definition as_bytes (v : cbor) (b : string) : Prop := v = CBytes b \/ v = CArr [] /\ b = EmptyString.

Definition null_or_bytes (t : option string) : cbor := match t with Some b => CBytes b | None => CNull end.

(** Any number of tags, of numbers allowed by [P]. *)
Inductive tags (P : N -> Prop) : string -> Prop :=
| tags_none : tags P EmptyString
| tags_more n h s : any_head 6 n h -> P n -> tags P s -> tags P (h +:+ s).
Definition any_tag (n : N) : Prop := True.

(** A byte string ([m = 2]) or text string ([m = 3]) of content [t]: in one piece, or in pieces up to a break.  A piece may
    itself be in pieces.  [P] holds of each piece. *)
Definition indefinite (m : N) : string := s1 (chr (32 * m + 31)).
Definition break : string := s1 (chr 255).
Inductive strung (m : N) (P : string -> Prop) : string -> string -> Prop :=
| strung_whole t h : any_head m (len t) h -> P t -> strung m P t (h +:+ t)
| strung_pieces t s : pieces m P t s -> strung m P t (indefinite m +:+ s)
with pieces (m : N) (P : string -> Prop) : string -> string -> Prop :=
| pieces_end : pieces m P EmptyString break
| pieces_more t s t' s' : strung m P t s -> pieces m P t' s' -> pieces m P (t +:+ t') (s +:+ s').
Definition text_string : string -> string -> Prop := strung 3 (fun t => utf8_valid t = true).
Definition byte_string : string -> string -> Prop := strung 2 (fun _ => True).

(** An integer from 0 to 255, possibly tagged (2 and 3 are the tags of big numbers), or a big number with such a value. *)
Inductive small_int (n : N) : string -> Prop :=
| small_plain t h : tags (fun k => k <> 2 /\ k <> 3) t -> any_head 0 n h -> n < 256 -> small_int n (t +:+ h)
| small_big t h b s : tags (fun k => k <> 2 /\ k <> 3) t -> any_head 6 2 h -> byte_string b s -> number b = n -> n < 256 ->
    small_int n (t +:+ h +:+ s).
Inductive small_ints : string -> string -> Prop :=
| ints_nil : small_ints EmptyString EmptyString
| ints_cons c b s s' : small_int (byte c) s -> small_ints b s' -> small_ints (String c b) (s +:+ s').
(** Bytes: a byte string, or an array of such integers. *)
Inductive bytes_item (b : string) : string -> Prop :=
| bytes_string t s : tags any_tag t -> byte_string b s -> bytes_item b (t +:+ s)
| bytes_array t h s : tags any_tag t -> any_head 4 (len b) h -> small_ints b s -> bytes_item b (t +:+ h +:+ s)
| bytes_open_array t s : tags any_tag t -> small_ints b s -> bytes_item b (t +:+ indefinite 4 +:+ s +:+ break).

(** The beginning of an array of at least [k] items. *)
Inductive array_of (k : N) : string -> Prop :=
| array_counted t n h : tags any_tag t -> any_head 4 n h -> k <= n -> array_of k (t +:+ h)
| array_open t : tags any_tag t -> array_of k (t +:+ indefinite 4).

(** Bytes beginning with an array of at least two items that starts with the text [id] and the bytes [hash]; what comes
    after is free. *)
Definition begins_handover (id hash : string) (s : string) : Prop :=
  exists a t x b rest,
    array_of 2 a /\ tags any_tag t /\ text_string id x /\ bytes_item hash b /\ s = a +:+ t +:+ x +:+ b +:+ rest.
(** Null or undefined, possibly tagged. *)
Definition null_item (s : string) : Prop := exists t u, tags any_tag t /\ unit_item u /\ s = t +:+ u.
(** Bytes beginning with an array of at least three items: two nulls and such an array. *)
Definition begins_transcript (id hash : string) (s : string) : Prop :=
  exists a u v r,
    array_of 3 a /\ null_item u /\ null_item v /\ begins_handover id hash r /\ s = a +:+ u +:+ v +:+ r.
(** An array of indefinite length that is closed before its third item, and a handover after it: each null may be
    replaced by a break. *)
Definition closed_early (id hash : string) (s : string) : Prop :=
  exists t u v r,
    tags any_tag t /\ (null_item u \/ u = break) /\ (null_item v \/ v = break) /\ (u = break \/ v = break)
    /\ begins_handover id hash r /\ s = t +:+ indefinite 4 +:+ u +:+ v +:+ r.

(* ------------------------------------------------------------ thumbprints *)
(** The members RFC 7638 takes into account, in lexicographic order. *)
Inductive thumbprint_members (key : obj) : obj -> Prop :=
| thumb_ec crv x y :
    text_at "kty" key "EC" -> text_at "crv" key crv -> text_at "x" key x -> text_at "y" key y ->
    thumbprint_members key [("crv", JStr crv); ("kty", JStr "EC"); ("x", JStr x); ("y", JStr y)]
| thumb_rsa e n :
    text_at "kty" key "RSA" -> text_at "e" key e -> text_at "n" key n ->
    thumbprint_members key [("e", JStr e); ("kty", JStr "RSA"); ("n", JStr n)].

(** Text that JSON prints without escapes. *)
Definition plain_text (s : string) : Prop :=
  forall c, has_char c s = true -> 32 <= byte c /\ c <> """"%char /\ c <> "\"%char.
Definition plain_members (key : obj) : Prop :=
  forall m, In m ["crv"; "x"; "y"; "e"; "n"] -> forall s, text_at m key s -> plain_text s.

(** Not marked for a use other than encryption. *)
Definition maybe_enc (key : obj) : Prop := forall u, text_at "use" key u -> u = "enc".
