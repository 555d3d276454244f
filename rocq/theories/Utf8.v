(** UTF-8 as used through [String::from_utf8] (/repo/src/core/authorization_request/mod.rs:131,
    /repo/src/wallet.rs:70-76), [String::from_utf8_lossy] (inside form_urlencoded's decoder) and
    serde_json's string checks.  The model follows Rust's [core::str::run_utf8_validation] and
    [Utf8Chunks] (one U+FFFD per maximal invalid subpart). *)
From Verif Require Import Base.

Definition in_range (lo hi : N) (c : ascii) : bool := (lo <=? byte c)%N && (byte c <=? hi)%N.

(** Ranges of the continuation bytes that must follow a lead byte; [None]: not a lead byte. *)
Definition utf8_start (c : ascii) : option (list (N * N)) :=
  let b := byte c in
  let k := (128, 191)%N in
  if (b <? 128)%N then Some []
  else if in_range 194 223 c then Some [k]
  else if (b =? 224)%N then Some [(160, 191)%N; k]
  else if (b =? 237)%N then Some [(128, 159)%N; k]
  else if in_range 225 239 c then Some [k; k]
  else if (b =? 240)%N then Some [(144, 191)%N; k; k]
  else if in_range 241 243 c then Some [k; k; k]
  else if (b =? 244)%N then Some [(128, 143)%N; k; k]
  else None.

Fixpoint utf8_go (pend : list (N * N)) (s : string) : bool :=
  match s with
  | EmptyString => match pend with [] => true | _ => false end
  | String c r =>
      match pend with
      | (lo, hi) :: p => in_range lo hi c && utf8_go p r
      | [] => match utf8_start c with Some p => utf8_go p r | None => false end
      end
  end.

(** [str::from_utf8(s).is_ok()]. *)
Definition utf8_valid (s : string) : bool := utf8_go [] s.

(** U+FFFD. *)
Definition fffd : string := String (chr 239) (String (chr 191) (s1 (chr 189))).

(** [String::from_utf8_lossy]: [pend] are the continuation bytes still expected, [acc] the bytes
    of the character being read. *)
Fixpoint lossy_go (pend : list (N * N)) (acc : string) (s : string) : string :=
  match s with
  | EmptyString => match pend with [] => EmptyString | _ => fffd end
  | String c r =>
      let restart :=
        match utf8_start c with
        | None => fffd +:+ lossy_go [] EmptyString r
        | Some [] => String c (lossy_go [] EmptyString r)
        | Some p => lossy_go p (s1 c) r
        end in
      match pend with
      | [] => restart
      | (lo, hi) :: p =>
          if in_range lo hi c then
            match p with
            | [] => acc +:+ String c (lossy_go [] EmptyString r)
            | _ => lossy_go p (acc +:+ s1 c) r
            end
          else fffd +:+ restart
      end
  end.
Definition utf8_lossy (s : string) : string := lossy_go [] EmptyString s.

(** UTF-8 encoding of a scalar value (used for [\u] escapes in JSON text). *)
Definition utf8_encode (n : N) : string :=
  if (n <? 128)%N then s1 (chr n)
  else if (n <? 2048)%N then
    String (chr (192 + n / 64)) (s1 (chr (128 + n mod 64)))
  else if (n <? 65536)%N then
    String (chr (224 + n / 4096)) (String (chr (128 + (n / 64) mod 64)) (s1 (chr (128 + n mod 64))))
  else
    String (chr (240 + n / 262144)) (String (chr (128 + (n / 4096) mod 64))
      (String (chr (128 + (n / 64) mod 64)) (s1 (chr (128 + n mod 64))))).

(** [s.trim().is_empty()]: every character has the Unicode White_Space property. *)
Fixpoint all_white (s : string) : bool :=
  match s with
  | EmptyString => true
  | String c r =>
      let b := byte c in
      if in_range 9 13 c || (b =? 32)%N then all_white r
      else match r with
      | String d r1 =>
          let b1 := byte d in
          if (b =? 194)%N && ((b1 =? 133)%N || (b1 =? 160)%N) then all_white r1
          else match r1 with
          | String e r2 =>
              let b2 := byte e in
              if ((b =? 225) && (b1 =? 154) && (b2 =? 128))%N
              || ((b =? 226) && (b1 =? 128) && (((128 <=? b2) && (b2 <=? 138)) || (b2 =? 168) || (b2 =? 169) || (b2 =? 175)))%N
              || ((b =? 226) && (b1 =? 129) && (b2 =? 159))%N
              || ((b =? 227) && (b1 =? 128) && (b2 =? 128))%N
              then all_white r2 else false
          | EmptyString => false
          end
      | EmptyString => false
      end
  end.
