(** /repo/src/core/iso_18013_7/mod.rs. *)
From Verif Require Import Base Utf8 Json Sha256 Cbor Object Params Request Verify.

Definition HANDOVER_TYPE_IDENTIFIER := "OpenID4VPHandover".             (** iso mod.rs:7 *)
Definition DC_API_HANDOVER_TYPE_IDENTIFIER := "OpenID4VPDCAPIHandover". (** iso mod.rs:10 *)

(** [Handover]/[DcApiHandover], iso mod.rs:20-24,148-152: the hash of the handover info. *)
Record handover := mk_handover { h_hash : string }.
Record dc_handover := mk_dc_handover { d_hash : string }.

Definition thumbprint_cbor (t : option string) : cbor :=
  match t with Some b => CBytes b | None => CNull end.
(** The info arrays, iso mod.rs:44-54,165-174. *)
Definition handover_info (client_id nonce : string) (tp : option string) (uri : string) : cbor :=
  CArr [CText client_id; CText nonce; thumbprint_cbor tp; CText uri].
Definition dc_handover_info (origin nonce : string) (tp : option string) : cbor :=
  CArr [CText origin; CText nonce; thumbprint_cbor tp].

(** [Handover::new], iso mod.rs:37-64; [DcApiHandover::new], 163-184. *)
Definition handover_new client_id nonce tp uri : handover :=
  mk_handover (sha256 (cbor_encode (handover_info client_id nonce tp uri))).
Definition dc_handover_new origin nonce tp : dc_handover :=
  mk_dc_handover (sha256 (cbor_encode (dc_handover_info origin nonce tp))).

(** [to_cbor_bytes], iso mod.rs:74-80,194-200; [Serialize], 83-95,203-214. *)
Definition handover_cbor (h : handover) : cbor :=
  CArr [CText HANDOVER_TYPE_IDENTIFIER; CBytes (h_hash h)].
Definition dc_handover_cbor (h : dc_handover) : cbor :=
  CArr [CText DC_API_HANDOVER_TYPE_IDENTIFIER; CBytes (d_hash h)].
Definition handover_bytes (h : handover) : string := cbor_encode (handover_cbor h).
Definition dc_handover_bytes (h : dc_handover) : string := cbor_encode (dc_handover_cbor h).

(** [SessionTranscript::to_cbor_bytes], iso mod.rs:293-305: the serialised handover is parsed back to
    a CBOR value and wrapped. *)
Definition transcript_of (serialised_handover : string) : res string :=
  let? v := ok_or (cbor_decode serialised_handover) "failed to parse handover CBOR" in
  Ok (cbor_encode (CArr [CNull; CNull; v])).
Definition transcript_bytes (h : handover) : res string := transcript_of (handover_bytes h).
Definition dc_transcript_bytes (h : dc_handover) : res string := transcript_of (dc_handover_bytes h).

(** [Serialize for SessionTranscript], iso mod.rs:316-328. *)
Definition transcript_serialize (h : handover) : string :=
  cbor_encode (CArr [CNull; CNull; handover_cbor h]).
Definition dc_transcript_serialize (h : dc_handover) : string :=
  cbor_encode (CArr [CNull; CNull; dc_handover_cbor h]).

(* ------------------------------------------------------------ decoding *)
(** Stream decoding by ciborium: elements are read one after the other; elements beyond those asked
    for are left unread. *)
(** The header of the next item; tags before it are skipped. *)
Fixpoint skip_tags (fuel : nat) (s : string) : option (header * string) :=
  match fuel with
  | O => None
  | S f => match pull s with Some (HTag _, r) => skip_tags f r | x => x end
  end.
Definition next_header (s : string) : option (header * string) := skip_tags (S (String.length s)) s.

(** [SeqAccess::next_element] before the element is read: [left] items are left, [None] when the array ends
    with a break.  [Some None]: there is no further element (a break has been consumed). *)
Definition next_element (left : option N) (s : string) : option (option (option N) * string) :=
  match left with
  | Some n => Some (if (n =? 0)%N then None else Some (Some (n - 1)%N), s)
  | None => match pull s with
            | None => None
            | Some (HBreak, r) => Some (None, r)
            | Some _ => Some (Some None, s)
            end
  end.

(** A [String]. *)
Definition read_text (s : string) : option (string * string) :=
  match next_header s with Some (HText n, r) => read_string true n r | _ => None end.
(** A unit: null or undefined. *)
Definition read_unit (s : string) : option string :=
  match next_header s with
  | Some (HSimple n, r) => if ((n =? 22) || (n =? 23))%N then Some r else None
  | _ => None
  end.
(** A [u8]: an unsigned integer, possibly as a big number (tag 2), below 256.  Bytes of the big number beyond
    the sixteenth are an error in ciborium, as is here every number beyond 255. *)
Fixpoint read_u8_from (fuel : nat) (s : string) : option (ascii * string) :=
  match fuel with
  | O => None
  | S f =>
      let small x := match x with Some (n, r) => if (n <? 256)%N then Some (chr n, r) else None | None => None end in
      match pull s with
      | Some (HPositive n, r) => small (Some (n, r))
      | Some (HTag t, r) =>
          if (t =? 2)%N then
            match pull r with
            | Some (HBytes n, q) => small (match read_string false n q with Some (b, z) => Some (be_val 0 b, z) | None => None end)
            | _ => None
            end
          else if (t =? 3)%N then None
          else read_u8_from f r
      | _ => None
      end
  end.
Definition read_u8 (s : string) : option (ascii * string) := read_u8_from (S (String.length s)) s.
(** A [ByteBuf] (crate serde_bytes): a byte string, or an array of [u8]. *)
Fixpoint read_u8s (fuel : nat) (left : option N) (s : string) : option (string * string) :=
  match fuel with
  | O => None
  | S f =>
      match next_element left s with
      | None => None
      | Some (None, r) => Some (EmptyString, r)
      | Some (Some left', r) =>
          match read_u8 r with
          | None => None
          | Some (c, q) => match read_u8s f left' q with Some (b, z) => Some (String c b, z) | None => None end
          end
      end
  end.
Definition read_bytes (s : string) : option (string * string) :=
  match next_header s with
  | Some (HBytes n, r) => read_string false n r
  | Some (HArray n, r) => read_u8s (S (String.length r)) n r
  | _ => None
  end.

(** [Deserialize for Handover], iso mod.rs:97-138, and for [DcApiHandover], 216-257. *)
Definition read_handover (type_id : string) (s : string) : option (string * string) :=
  match next_header s with
  | Some (HArray n, r) =>
      match next_element n r with
      | Some (Some n1, r1) =>
          match read_text r1 with
          | Some (t, r2) =>
              if negb (String.eqb t type_id) then None
              else match next_element n1 r2 with
                   | Some (Some _, r3) => read_bytes r3
                   | _ => None
                   end
          | None => None
          end
      | _ => None
      end
  | _ => None
  end.
Definition handover_decode (s : string) : option handover :=
  match read_handover HANDOVER_TYPE_IDENTIFIER s with Some (h, _) => Some (mk_handover h) | None => None end.
Definition dc_handover_decode (s : string) : option dc_handover :=
  match read_handover DC_API_HANDOVER_TYPE_IDENTIFIER s with
  | Some (h, _) => Some (mk_dc_handover h) | None => None
  end.

(** [Deserialize for SessionTranscript], iso mod.rs:330-361: two units, whose absence goes unnoticed (349-350), then
    the handover. *)
Definition optional_unit (left : option N) (s : string) : option (option N * string) :=
  match next_element left s with
  | None => None
  | Some (None, r) => Some (left, r)
  | Some (Some left', r) => match read_unit r with Some q => Some (left', q) | None => None end
  end.
Definition read_transcript (type_id : string) (s : string) : option (string * string) :=
  match next_header s with
  | Some (HArray n, r) =>
      match optional_unit n r with
      | Some (n1, r1) =>
          match optional_unit n1 r1 with
          | Some (n2, r2) => match next_element n2 r2 with Some (Some _, r3) => read_handover type_id r3 | _ => None end
          | None => None
          end
      | None => None
      end
  | _ => None
  end.
Definition transcript_decode (s : string) : option handover :=
  match read_transcript HANDOVER_TYPE_IDENTIFIER s with
  | Some (h, _) => Some (mk_handover h) | None => None
  end.
Definition dc_transcript_decode (s : string) : option dc_handover :=
  match read_transcript DC_API_HANDOVER_TYPE_IDENTIFIER s with
  | Some (h, _) => Some (mk_dc_handover h) | None => None
  end.

(* ------------------------------------------------------------ JWK thumbprints *)
Definition q : string := String """" EmptyString.

(** The canonical text of iso mod.rs:434-466 ([format!], without escaping). *)
Definition canonical_jwk (key : obj) : res string :=
  let? kty := ok_or (key_str "kty" key) "JWK missing 'kty'" in
  if String.eqb kty "EC" then
    let? crv := ok_or (key_str "crv" key) "EC JWK missing 'crv'" in
    let? x := ok_or (key_str "x" key) "EC JWK missing 'x'" in
    let? y := ok_or (key_str "y" key) "EC JWK missing 'y'" in
    Ok ("{" +:+ q +:+ "crv" +:+ q +:+ ":" +:+ q +:+ crv +:+ q +:+ "," +:+ q +:+ "kty" +:+ q +:+ ":"
        +:+ q +:+ "EC" +:+ q +:+ "," +:+ q +:+ "x" +:+ q +:+ ":" +:+ q +:+ x +:+ q +:+ "," +:+ q
        +:+ "y" +:+ q +:+ ":" +:+ q +:+ y +:+ q +:+ "}")
  else if String.eqb kty "RSA" then
    let? e := ok_or (key_str "e" key) "RSA JWK missing 'e'" in
    let? n := ok_or (key_str "n" key) "RSA JWK missing 'n'" in
    Ok ("{" +:+ q +:+ "e" +:+ q +:+ ":" +:+ q +:+ e +:+ q +:+ "," +:+ q +:+ "kty" +:+ q +:+ ":"
        +:+ q +:+ "RSA" +:+ q +:+ "," +:+ q +:+ "n" +:+ q +:+ ":" +:+ q +:+ n +:+ q +:+ "}")
  else Err "unsupported key type".

(** [compute_jwk_thumbprint], iso mod.rs:427-470, on a JSON object. *)
Definition jwk_thumbprint (key : obj) : res string := rmap sha256 (canonical_jwk key).

(** [get_encryption_jwk_thumbprint], iso mod.rs:383-407. *)
Definition not_other_use (key : obj) : bool :=
  match key_str "use" key with Some u => String.eqb u "enc" | None => true end.
Fixpoint first_thumbprint (keys : list obj) : option string :=
  match keys with
  | [] => None
  | k :: r =>
      match (if not_other_use k then jwk_thumbprint k else Err "other use") with
      | Ok t => Some t
      | Err _ => first_thumbprint r
      end
  end.
Definition encryption_jwk_thumbprint (a : aro) : option string :=
  match aro_client_metadata a with
  | Ok cm => match parsing_error (cm_jwks cm) with
             | Ok keys => first_thumbprint keys
             | Err _ => None
             end
  | Err _ => None
  end.
