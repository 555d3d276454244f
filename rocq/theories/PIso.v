(** Session transcripts and thumbprints (C51-C55) *)
From Coq Require Import Lia.
From Verif Require Import Base BaseFacts Utf8 Json JsonFacts JsonText JsonTextFacts Sha256 Sha256Facts Cbor Object Params Url Request
  Verify Jwe Iso Spec SpecRequest PfRequest PfVerify SpecJwe PfJwe SpecIso CborFacts CborStreamFacts.
From Verif Require Import PfIso.

(** C51: the transcript of a redirect flow is [null, null, ["OpenID4VPHandover", SHA-256(info)]] in shortest
    CBOR, where info is the CBOR array of client id, nonce, thumbprint or null, and response URI. *)
Theorem c51_redirect :
  forall (client_id nonce : string) (thumbprint : option string) (response_uri t : string),
    short client_id -> short nonce -> short_opt thumbprint -> short response_uri ->
    (transcript_bytes (handover_new client_id nonce thumbprint response_uri) = Ok t <->
     exists info,
       encodes (CArr [CText client_id; CText nonce; null_or_bytes thumbprint; CText response_uri]) info
       /\ encodes (CArr [CNull; CNull; CArr [CText "OpenID4VPHandover"; CBytes (sha256 info)]]) t).
Proof. exact c51_redirect_pf. Qed.
Print Assumptions c51_redirect.

Example c51_redirect_witness :
  exists t, transcript_bytes (handover_new "x509_san_dns:example.com" "exc7gBkxjx1rdc9udRrveKvSsJIq80avlXeLHhGwqtA"
      (match jwk_thumbprint [("crv", JStr "P-256"); ("kty", JStr "EC"); ("x", JStr "DxiH5Q4Yx3UrukE2lWCErq8N8bqC9CHLLrAwLz5BmE0");
         ("y", JStr "XtLM4-3h5o3HUH0MHVJV0kyq0iBlrBwlh8qEDMZ4-Pc")] with Ok x => Some x | Err _ => None end)
      "https://example.com/response") = Ok t
    /\ bytes_of t = ([131; 246; 246; 130; 113] ++ bytes_of "OpenID4VPHandover" ++ [88; 32]
        ++ [4; 139; 192; 83; 192; 4; 66; 175; 155; 142; 237; 73; 76; 239; 221; 157; 149; 36; 13; 37; 75; 4; 107; 17;
            182; 128; 19; 114; 42; 173; 56; 172])%N.
Proof. exact c51_redirect_ex. Qed.

(** C51: the same for the Digital Credentials API, with origin, nonce and thumbprint. *)
Theorem c51_dc_api :
  forall (origin nonce : string) (thumbprint : option string) (t : string),
    short origin -> short nonce -> short_opt thumbprint ->
    (dc_transcript_bytes (dc_handover_new origin nonce thumbprint) = Ok t <->
     exists info,
       encodes (CArr [CText origin; CText nonce; null_or_bytes thumbprint]) info
       /\ encodes (CArr [CNull; CNull; CArr [CText "OpenID4VPDCAPIHandover"; CBytes (sha256 info)]]) t).
Proof. exact c51_dc_api_pf. Qed.
Print Assumptions c51_dc_api.

Example c51_dc_api_witness :
  exists t, dc_transcript_bytes (dc_handover_new "https://example.com" "exc7gBkxjx1rdc9udRrveKvSsJIq80avlXeLHhGwqtA"
      (match jwk_thumbprint [("crv", JStr "P-256"); ("kty", JStr "EC"); ("x", JStr "DxiH5Q4Yx3UrukE2lWCErq8N8bqC9CHLLrAwLz5BmE0");
         ("y", JStr "XtLM4-3h5o3HUH0MHVJV0kyq0iBlrBwlh8qEDMZ4-Pc")] with Ok x => Some x | Err _ => None end)) = Ok t
    /\ bytes_of t = ([131; 246; 246; 130; 118] ++ bytes_of "OpenID4VPDCAPIHandover" ++ [88; 32]
        ++ [251; 236; 227; 102; 244; 33; 47; 151; 98; 199; 76; 253; 191; 131; 184; 198; 158; 55; 29; 93; 104; 206; 160; 156;
            180; 196; 140; 166; 218; 171; 118; 26])%N.
Proof. exact c51_dc_api_ex. Qed.

(** C51: serialising a transcript with serde gives the same bytes as its own method. *)
Theorem c51_serialize :
  forall (h : handover) (d : dc_handover),
    short (h_hash h) -> short (d_hash d) ->
    transcript_bytes h = Ok (transcript_serialize h) /\ dc_transcript_bytes d = Ok (dc_transcript_serialize d).
Proof. exact c51_serialize_pf. Qed.
Print Assumptions c51_serialize.

Example c51_serialize_witness :
  short (h_hash (handover_new "c" "n" None "u")) /\ short (d_hash (dc_handover_new "o" "n" (Some "t"))).
Proof. exact c51_serialize_ex. Qed.

(** C52: different client id, nonce, thumbprint or response URI give different hashed bytes; equal
    transcripts mean equal digests of those bytes. *)
Theorem c52_redirect :
  forall (c n u c' n' u' : string) (tp tp' : option string),
    short c -> short n -> short_opt tp -> short u -> short c' -> short n' -> short_opt tp' -> short u' ->
    exists info info',
      encodes (CArr [CText c; CText n; null_or_bytes tp; CText u]) info
      /\ encodes (CArr [CText c'; CText n'; null_or_bytes tp'; CText u']) info'
      /\ (info = info' -> (c, n, tp, u) = (c', n', tp', u'))
      /\ (transcript_bytes (handover_new c n tp u) = transcript_bytes (handover_new c' n' tp' u')
          <-> sha256 info = sha256 info').
Proof. exact c52_redirect_pf. Qed.
Print Assumptions c52_redirect.

Example c52_redirect_witness : short "x509_san_dns:example.com" /\ short_opt (Some "abc") /\ short_opt None.
Proof. exact c52_redirect_ex. Qed.

(** C52: the same for the Digital Credentials API. *)
Theorem c52_dc_api :
  forall (o n o' n' : string) (tp tp' : option string),
    short o -> short n -> short_opt tp -> short o' -> short n' -> short_opt tp' ->
    exists info info',
      encodes (CArr [CText o; CText n; null_or_bytes tp]) info
      /\ encodes (CArr [CText o'; CText n'; null_or_bytes tp']) info'
      /\ (info = info' -> (o, n, tp) = (o', n', tp'))
      /\ (dc_transcript_bytes (dc_handover_new o n tp) = dc_transcript_bytes (dc_handover_new o' n' tp')
          <-> sha256 info = sha256 info').
Proof. exact c52_dc_api_pf. Qed.
Print Assumptions c52_dc_api.

Example c52_dc_api_witness : short "https://example.com" /\ short "nonce" /\ short_opt (Some "abc") /\ short_opt None.
Proof. exact c52_dc_api_ex. Qed.

(** C52: a redirect transcript is never equal to a Digital Credentials API transcript, nor is a thumbprint
    ever confused with its absence. *)
Theorem c52_flows :
  forall (h : handover) (d : dc_handover),
    short (h_hash h) -> short (d_hash d) -> transcript_bytes h <> dc_transcript_bytes d.
Proof. exact c52_flows_pf. Qed.
Print Assumptions c52_flows.

Example c52_flows_witness : short (h_hash (handover_new "c" "n" None "u")) /\ short (d_hash (dc_handover_new "o" "n" (Some "t"))).
Proof. exact c52_flows_ex. Qed.

(** C53: of the CBOR items the library writes, exactly the arrays that begin with the type identifier and bytes are read
    as a handover, and the bytes are the hash. *)
Theorem c53_handover :
  forall (v : cbor) (s : string),
    encodes v s -> text_items v ->
    (forall h, handover_decode s = Some (mk_handover h) <-> exists x rest, v = CArr (CText "OpenID4VPHandover" :: x :: rest) /\ as_bytes x h)
    /\ (forall h, dc_handover_decode s = Some (mk_dc_handover h) <-> exists x rest, v = CArr (CText "OpenID4VPDCAPIHandover" :: x :: rest) /\ as_bytes x h).
Proof. exact c53_handover_pf. Qed.
Print Assumptions c53_handover.

Example c53_handover_witness :
  let v := CArr [CText "OpenID4VPHandover"; CBytes "abc"] in
  encodes v (cbor_encode v) /\ text_items v /\ handover_decode (cbor_encode v) = Some (mk_handover "abc")
  /\ dc_handover_decode (cbor_encode v) = None.
Proof. exact c53_handover_ex. Qed.

(** C53: likewise exactly the arrays of two nulls and a handover are read as a transcript; a transcript of the
    other flow is refused. *)
Theorem c53_transcript :
  forall (v : cbor) (s : string),
    encodes v s -> text_items v ->
    (forall h, transcript_decode s = Some (mk_handover h) <->
       exists x rest rest', v = CArr (CNull :: CNull :: CArr (CText "OpenID4VPHandover" :: x :: rest) :: rest') /\ as_bytes x h)
    /\ (forall h, dc_transcript_decode s = Some (mk_dc_handover h) <->
       exists x rest rest', v = CArr (CNull :: CNull :: CArr (CText "OpenID4VPDCAPIHandover" :: x :: rest) :: rest') /\ as_bytes x h).
Proof. exact c53_transcript_pf. Qed.
Print Assumptions c53_transcript.

Example c53_transcript_witness :
  let v := CArr [CNull; CNull; CArr [CText "OpenID4VPDCAPIHandover"; CBytes "abc"]] in
  encodes v (cbor_encode v) /\ text_items v /\ dc_transcript_decode (cbor_encode v) = Some (mk_dc_handover "abc")
  /\ transcript_decode (cbor_encode v) = None.
Proof. exact c53_transcript_ex. Qed.

(** C53: what is written is read back. *)
Theorem c53_roundtrip :
  forall (h : handover) (d : dc_handover),
    short (h_hash h) -> short (d_hash d) ->
    handover_decode (handover_bytes h) = Some h /\ dc_handover_decode (dc_handover_bytes d) = Some d
    /\ (exists t, transcript_bytes h = Ok t /\ transcript_decode t = Some h)
    /\ (exists t, dc_transcript_bytes d = Ok t /\ dc_transcript_decode t = Some d).
Proof. exact c53_roundtrip_pf. Qed.
Print Assumptions c53_roundtrip.

Example c53_roundtrip_witness : short (h_hash (mk_handover "abc")) /\ short (d_hash (dc_handover_new "o" "n" (Some "t"))).
Proof. exact c53_roundtrip_ex. Qed.

(** C53: which byte strings are read, however they are written (tags, indefinite lengths, heads of any length): a handover
    is an array of at least two items that begins with the type identifier and bytes; a transcript is an array of at
    least three that begins with two nulls and a handover, or an array closed too early with a handover after it. *)
Theorem c53_bytes :
  forall (s h : string),
    (handover_decode s = Some (mk_handover h) <-> begins_handover "OpenID4VPHandover" h s)
    /\ (dc_handover_decode s = Some (mk_dc_handover h) <-> begins_handover "OpenID4VPDCAPIHandover" h s)
    /\ (transcript_decode s = Some (mk_handover h) <-> begins_transcript "OpenID4VPHandover" h s \/ closed_early "OpenID4VPHandover" h s)
    /\ (dc_transcript_decode s = Some (mk_dc_handover h) <-> begins_transcript "OpenID4VPDCAPIHandover" h s \/ closed_early "OpenID4VPDCAPIHandover" h s).
Proof. exact c53_bytes_pf. Qed.
Print Assumptions c53_bytes.

Example c53_bytes_witness :
  let s := of_bytes [152; 3; 120; 17]%N +:+ "OpenID4VPHandover" +:+ of_bytes [89; 0; 2; 1; 2; 246]%N in
  let s' := of_bytes [193; 159; 127; 106]%N +:+ "OpenID4VPH" +:+ of_bytes [103]%N +:+ "andover" +:+ of_bytes [255; 130; 24; 7; 194; 65; 9; 255]%N in
  handover_decode s = Some (mk_handover (of_bytes [1; 2]%N))
  /\ transcript_decode (of_bytes [131; 248; 22; 247]%N +:+ s) = Some (mk_handover (of_bytes [1; 2]%N))
  /\ transcript_decode (of_bytes [131; 249; 0; 22; 247]%N +:+ s) = None
  /\ handover_decode s' = Some (mk_handover (of_bytes [7; 9]%N))
  /\ transcript_decode (of_bytes [159; 246; 246]%N +:+ s') = Some (mk_handover (of_bytes [7; 9]%N))
  /\ handover_decode (of_bytes [130; 113]%N +:+ "OpenID4VPHandover" +:+ of_bytes [129; 25; 1; 0]%N) = None.
Proof. exact c53_bytes_ex. Qed.

(** C53: an empty array that is followed by a handover is read as a transcript, although it has neither the nulls nor
    the handover. *)
Theorem c53_empty_refuted :
  exists s h, encodes (CArr [CText "OpenID4VPHandover"; CBytes h]) s /\ transcript_decode (indefinite 4 +:+ break +:+ break +:+ s) = Some (mk_handover h).
Proof. exact c53_empty_refuted_pf. Qed.
Print Assumptions c53_empty_refuted.

(** C54: the thumbprint is SHA-256 of the JSON text of the members RFC 7638 requires, in lexicographic order
    and without white space; it exists exactly when those members are there. *)
Theorem c54_rfc7638 :
  forall (key : obj) (t : string),
    plain_members key ->
    (jwk_thumbprint key = Ok t <-> exists o, thumbprint_members key o /\ t = sha256 (jprint (JObj o))).
Proof. exact c54_rfc7638_pf. Qed.
Print Assumptions c54_rfc7638.

Example c54_rfc7638_witness :
  plain_members rfc_key
  /\ jwk_thumbprint rfc_key = Ok (sha256 "{""crv"":""P-256"",""kty"":""EC"",""x"":""DxiH5Q4Yx3UrukE2lWCErq8N8bqC9CHLLrAwLz5BmE0"",""y"":""XtLM4-3h5o3HUH0MHVJV0kyq0iBlrBwlh8qEDMZ4-Pc""}").
Proof. exact c54_rfc7638_ex. Qed.

(** C54: nothing else of the key enters, whatever the member values. *)
Theorem c54_depends :
  forall (key key' : obj) (o : obj),
    thumbprint_members key o -> thumbprint_members key' o -> jwk_thumbprint key = jwk_thumbprint key'.
Proof. exact c54_depends_pf. Qed.
Print Assumptions c54_depends.

Example c54_depends_witness :
  exists o, thumbprint_members rfc_key o /\ thumbprint_members (obj_insert "kid" (JStr "2") (obj_insert "use" (JStr "enc") rfc_key)) o.
Proof. exact c54_depends_ex. Qed.

(** C54: for keys whose members need no escapes, different members give different hashed texts. *)
Theorem c54_injective :
  forall (key key' : obj) (o o' : obj),
    plain_members key -> plain_members key' -> thumbprint_members key o -> thumbprint_members key' o' ->
    (jprint (JObj o) = jprint (JObj o') -> o = o')
    /\ (jwk_thumbprint key = jwk_thumbprint key' <-> sha256 (jprint (JObj o)) = sha256 (jprint (JObj o'))).
Proof. exact c54_injective_pf. Qed.
Print Assumptions c54_injective.

Example c54_injective_witness : plain_members rfc_key /\ exists o, thumbprint_members rfc_key o.
Proof. exact c54_injective_ex. Qed.

(** C54: because members are not escaped, two different keys can have the same hashed text, hence the same
    thumbprint. *)
Theorem c54_quotes_refuted :
  exists (key key' : obj) (o o' : obj),
    thumbprint_members key o /\ thumbprint_members key' o' /\ o <> o' /\ jprint (JObj o) <> jprint (JObj o')
    /\ jwk_thumbprint key = jwk_thumbprint key'.
Proof. exact c54_quotes_refuted_pf. Qed.
Print Assumptions c54_quotes_refuted.

(** C55: the thumbprint that enters the transcript is that of the first key of the client's metadata that is
    not marked for another use and whose thumbprint can be computed. *)
Theorem c55_which_key :
  forall (a : aro) (t : string),
    encryption_jwk_thumbprint a = Some t <->
    exists cm keys pre key post,
      client_metadata (aro_to_obj a) cm /\ client_keys cm keys /\ keys = pre ++ key :: post
      /\ maybe_enc key /\ jwk_thumbprint key = Ok t
      /\ forall k, In k pre -> ~ (maybe_enc k /\ exists t', jwk_thumbprint k = Ok t').
Proof. exact c55_which_key_pf. Qed.
Print Assumptions c55_which_key.

Example c55_which_key_witness :
  thumb_of [obj_insert "use" (JStr "sig") (ec_key "P-256" "1"); [("kty", JStr "OKP")]; ec_key "P-256" "2"; ec_key "P-256" "3"]
  = Ok (Some (sha256 "{""crv"":""P-256"",""kty"":""EC"",""x"":""2"",""y"":""y""}")).
Proof. exact c55_which_key_ex. Qed.

(** C55: that key can be another one than the key the response is encrypted to. *)
Theorem c55_differ_refuted :
  exists (a : aro) (cm key : obj) (keys : list obj) (t t' : string),
    client_metadata (aro_to_obj a) cm /\ client_keys cm keys /\ first_key keys key
    /\ encryption_jwk_thumbprint a = Some t /\ jwk_thumbprint key = Ok t' /\ t <> t'.
Proof. exact c55_differ_refuted_pf. Qed.
Print Assumptions c55_differ_refuted.

(** C55: they agree when the first key not marked for another use is an EC key on P-256 for ECDH-ES with its
    coordinates. *)
Theorem c55_agree :
  forall (a : aro) (cm key : obj) (pre post : list obj) (x y : string),
    client_metadata (aro_to_obj a) cm -> client_keys cm (pre ++ key :: post) ->
    (forall k, In k pre -> ~ maybe_enc k) ->
    encryption_key key -> text_at "kty" key "EC" -> text_at "x" key x -> text_at "y" key y ->
    first_key (pre ++ key :: post) key
    /\ exists t, jwk_thumbprint key = Ok t /\ encryption_jwk_thumbprint a = Some t.
Proof. exact c55_agree_pf. Qed.
Print Assumptions c55_agree.

Example c55_agree_witness :
  let keys := [obj_insert "use" (JStr "sig") (ec_key "P-256" "1")] ++ ec_key "P-256" "2" :: [] in
  match aro_of_obj simple_parse (enc_request [] keys) with
  | Ok a => exists cm, client_metadata (aro_to_obj a) cm /\ client_keys cm keys
  | Err _ => False
  end
  /\ ~ maybe_enc (obj_insert "use" (JStr "sig") (ec_key "P-256" "1")) /\ encryption_key (ec_key "P-256" "2").
Proof. exact c55_agree_ex. Qed.
