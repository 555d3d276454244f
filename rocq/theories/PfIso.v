From Coq Require Import Lia.
From Verif Require Import Base BaseFacts Utf8 Json JsonFacts JsonText JsonTextFacts Sha256 Sha256Facts Cbor Object Params Url Request
  Verify Jwe Iso Spec SpecRequest PfRequest PfVerify SpecJwe PfJwe SpecIso CborFacts CborStreamFacts.

Lemma short_digest s : short (sha256 s).
Proof. unfold short, len. rewrite sha256_len. reflexivity. Qed.
Ltac sz := cbn [sized fold_right length null_or_bytes h_hash d_hash]; repeat split; auto using short_digest; try reflexivity.
Lemma handover_sized id h : short h -> short id -> sized (CArr [CText id; CBytes h]).
Proof. intros H I. sz. Qed.

Lemma transcript_is id h : short h -> short id -> utf8_valid id = true ->
  transcript_of (cbor_encode (CArr [CText id; CBytes h])) = Ok (cbor_encode (CArr [CNull; CNull; CArr [CText id; CBytes h]])).
Proof.
  intros H I U. unfold transcript_of. rewrite decode_encode; [reflexivity|now apply handover_sized|]. cbn. auto.
Qed.
Lemma info_sized c n tp u : short c -> short n -> short_opt tp -> short u ->
  sized (CArr [CText c; CText n; null_or_bytes tp; CText u]).
Proof. intros. sz. destruct tp; sz. Qed.
Lemma dc_info_sized o n tp : short o -> short n -> short_opt tp -> sized (CArr [CText o; CText n; null_or_bytes tp]).
Proof. intros. sz. destruct tp; sz. Qed.
Lemma transcript_sized id h : short h -> short id -> sized (CArr [CNull; CNull; CArr [CText id; CBytes h]]).
Proof. intros H I. sz. Qed.
Lemma ok_inj {A} (a b : A) : Ok a = Ok b -> a = b.
Proof. congruence. Qed.
Lemma some_pair {A B} (a a' : A) (b b' : B) : Some (a, b) = Some (a', b') -> a = a'.
Proof. congruence. Qed.
Lemma ids : short HANDOVER_TYPE_IDENTIFIER /\ short DC_API_HANDOVER_TYPE_IDENTIFIER
  /\ utf8_valid HANDOVER_TYPE_IDENTIFIER = true /\ utf8_valid DC_API_HANDOVER_TYPE_IDENTIFIER = true.
Proof. repeat split. Qed.

(* ------------------------------------------------------------ C51 *)
(** C51: the transcript of a redirect flow is [null, null, ["OpenID4VPHandover", SHA-256(info)]] in shortest
    CBOR, where info is the CBOR array of client id, nonce, thumbprint or null, and response URI. *)
Lemma c51_redirect_pf :
  forall (client_id nonce : string) (thumbprint : option string) (response_uri t : string),
    short client_id -> short nonce -> short_opt thumbprint -> short response_uri ->
    (transcript_bytes (handover_new client_id nonce thumbprint response_uri) = Ok t <->
     exists info,
       encodes (CArr [CText client_id; CText nonce; null_or_bytes thumbprint; CText response_uri]) info
       /\ encodes (CArr [CNull; CNull; CArr [CText "OpenID4VPHandover"; CBytes (sha256 info)]]) t).
Proof.
  intros c n tp u t Hc Hn Ht Hu. unfold transcript_bytes, handover_bytes, handover_cbor.
  rewrite transcript_is by (apply short_digest || apply ids).
  pose proof (info_sized c n tp u Hc Hn Ht Hu) as S. split.
  - intros H. apply ok_inj in H as <-. eexists. split; [apply encodes_encode, S|]. apply encodes_encode.
    apply transcript_sized; [apply short_digest|apply ids].
  - intros (i & Hi & H). apply (proj1 encodes_fun) in Hi as ->. apply (proj1 encodes_fun) in H as ->. reflexivity.
Qed.

Example c51_redirect_ex :
  exists t, transcript_bytes (handover_new "x509_san_dns:example.com" "exc7gBkxjx1rdc9udRrveKvSsJIq80avlXeLHhGwqtA"
      (match jwk_thumbprint [("crv", JStr "P-256"); ("kty", JStr "EC"); ("x", JStr "DxiH5Q4Yx3UrukE2lWCErq8N8bqC9CHLLrAwLz5BmE0");
         ("y", JStr "XtLM4-3h5o3HUH0MHVJV0kyq0iBlrBwlh8qEDMZ4-Pc")] with Ok x => Some x | Err _ => None end)
      "https://example.com/response") = Ok t
    /\ bytes_of t = ([131; 246; 246; 130; 113] ++ bytes_of "OpenID4VPHandover" ++ [88; 32]
        ++ [4; 139; 192; 83; 192; 4; 66; 175; 155; 142; 237; 73; 76; 239; 221; 157; 149; 36; 13; 37; 75; 4; 107; 17;
            182; 128; 19; 114; 42; 173; 56; 172])%N.
Proof. eexists. split; vm_compute; reflexivity. Qed.

(** C51: the same for the Digital Credentials API, with origin, nonce and thumbprint. *)
Lemma c51_dc_api_pf :
  forall (origin nonce : string) (thumbprint : option string) (t : string),
    short origin -> short nonce -> short_opt thumbprint ->
    (dc_transcript_bytes (dc_handover_new origin nonce thumbprint) = Ok t <->
     exists info,
       encodes (CArr [CText origin; CText nonce; null_or_bytes thumbprint]) info
       /\ encodes (CArr [CNull; CNull; CArr [CText "OpenID4VPDCAPIHandover"; CBytes (sha256 info)]]) t).
Proof.
  intros o n tp t Ho Hn Ht. unfold dc_transcript_bytes, dc_handover_bytes, dc_handover_cbor.
  rewrite transcript_is by (apply short_digest || apply ids).
  pose proof (dc_info_sized o n tp Ho Hn Ht) as S. split.
  - intros H. apply ok_inj in H as <-. eexists. split; [apply encodes_encode, S|]. apply encodes_encode.
    apply transcript_sized; [apply short_digest|apply ids].
  - intros (i & Hi & H). apply (proj1 encodes_fun) in Hi as ->. apply (proj1 encodes_fun) in H as ->. reflexivity.
Qed.

Example c51_dc_api_ex :
  exists t, dc_transcript_bytes (dc_handover_new "https://example.com" "exc7gBkxjx1rdc9udRrveKvSsJIq80avlXeLHhGwqtA"
      (match jwk_thumbprint [("crv", JStr "P-256"); ("kty", JStr "EC"); ("x", JStr "DxiH5Q4Yx3UrukE2lWCErq8N8bqC9CHLLrAwLz5BmE0");
         ("y", JStr "XtLM4-3h5o3HUH0MHVJV0kyq0iBlrBwlh8qEDMZ4-Pc")] with Ok x => Some x | Err _ => None end)) = Ok t
    /\ bytes_of t = ([131; 246; 246; 130; 118] ++ bytes_of "OpenID4VPDCAPIHandover" ++ [88; 32]
        ++ [251; 236; 227; 102; 244; 33; 47; 151; 98; 199; 76; 253; 191; 131; 184; 198; 158; 55; 29; 93; 104; 206; 160; 156;
            180; 196; 140; 166; 218; 171; 118; 26])%N.
Proof. eexists. split; vm_compute; reflexivity. Qed.

(** C51: serialising a transcript with serde gives the same bytes as its own method. *)
Lemma c51_serialize_pf :
  forall (h : handover) (d : dc_handover),
    short (h_hash h) -> short (d_hash d) ->
    transcript_bytes h = Ok (transcript_serialize h) /\ dc_transcript_bytes d = Ok (dc_transcript_serialize d).
Proof.
  intros h d Hh Hd. unfold transcript_bytes, dc_transcript_bytes, handover_bytes, dc_handover_bytes, handover_cbor, dc_handover_cbor.
  rewrite !transcript_is by (assumption || apply ids). split; reflexivity.
Qed.

Example c51_serialize_ex :
  short (h_hash (handover_new "c" "n" None "u")) /\ short (d_hash (dc_handover_new "o" "n" (Some "t"))).
Proof. split; apply short_digest. Qed.

(* ------------------------------------------------------------ C52 *)
(** C52: different client id, nonce, thumbprint or response URI give different hashed bytes; equal
    transcripts mean equal digests of those bytes. *)
Lemma c52_redirect_pf :
  forall (c n u c' n' u' : string) (tp tp' : option string),
    short c -> short n -> short_opt tp -> short u -> short c' -> short n' -> short_opt tp' -> short u' ->
    exists info info',
      encodes (CArr [CText c; CText n; null_or_bytes tp; CText u]) info
      /\ encodes (CArr [CText c'; CText n'; null_or_bytes tp'; CText u']) info'
      /\ (info = info' -> (c, n, tp, u) = (c', n', tp', u'))
      /\ (transcript_bytes (handover_new c n tp u) = transcript_bytes (handover_new c' n' tp' u')
          <-> sha256 info = sha256 info').
Proof.
  intros c n u c' n' u' tp tp' Hc Hn Ht Hu Hc' Hn' Ht' Hu'.
  pose proof (info_sized c n tp u Hc Hn Ht Hu) as S. pose proof (info_sized c' n' tp' u' Hc' Hn' Ht' Hu') as S'.
  eexists. eexists. split; [apply encodes_encode, S|]. split; [apply encodes_encode, S'|]. split.
  - intros H. apply encode_inj0 in H; [|assumption|assumption].
    assert (X : [CText c; CText n; null_or_bytes tp; CText u] = [CText c'; CText n'; null_or_bytes tp'; CText u']) by congruence.
    destruct tp, tp'; cbn [null_or_bytes] in X; congruence.
  - unfold transcript_bytes, handover_bytes, handover_cbor.
    rewrite !transcript_is by (apply short_digest || apply ids). unfold handover_new, h_hash, handover_info.
    change (thumbprint_cbor tp) with (null_or_bytes tp). change (thumbprint_cbor tp') with (null_or_bytes tp').
    set (i := cbor_encode (CArr [CText c; _; _; _])). set (i' := cbor_encode (CArr [CText c'; _; _; _])). split.
    + intros H. assert (E : cbor_encode (CArr [CNull; CNull; CArr [CText HANDOVER_TYPE_IDENTIFIER; CBytes (sha256 i)]])
        = cbor_encode (CArr [CNull; CNull; CArr [CText HANDOVER_TYPE_IDENTIFIER; CBytes (sha256 i')]])) by congruence.
      apply encode_inj0 in E; [|sz|sz]. now injection E.
    + intros ->. reflexivity.
Qed.

Example c52_redirect_ex : short "x509_san_dns:example.com" /\ short_opt (Some "abc") /\ short_opt None.
Proof. repeat split. Qed.

(** C52: the same for the Digital Credentials API. *)
Lemma c52_dc_api_pf :
  forall (o n o' n' : string) (tp tp' : option string),
    short o -> short n -> short_opt tp -> short o' -> short n' -> short_opt tp' ->
    exists info info',
      encodes (CArr [CText o; CText n; null_or_bytes tp]) info
      /\ encodes (CArr [CText o'; CText n'; null_or_bytes tp']) info'
      /\ (info = info' -> (o, n, tp) = (o', n', tp'))
      /\ (dc_transcript_bytes (dc_handover_new o n tp) = dc_transcript_bytes (dc_handover_new o' n' tp')
          <-> sha256 info = sha256 info').
Proof.
  intros c n c' n' tp tp' Hc Hn Ht Hc' Hn' Ht'.
  pose proof (dc_info_sized c n tp Hc Hn Ht) as S. pose proof (dc_info_sized c' n' tp' Hc' Hn' Ht') as S'.
  eexists. eexists. split; [apply encodes_encode, S|]. split; [apply encodes_encode, S'|]. split.
  - intros H. apply encode_inj0 in H; [|assumption|assumption].
    assert (X : [CText c; CText n; null_or_bytes tp] = [CText c'; CText n'; null_or_bytes tp']) by congruence.
    destruct tp, tp'; cbn [null_or_bytes] in X; congruence.
  - unfold dc_transcript_bytes, dc_handover_bytes, dc_handover_cbor.
    rewrite !transcript_is by (apply short_digest || apply ids). unfold dc_handover_new, d_hash, dc_handover_info.
    change (thumbprint_cbor tp) with (null_or_bytes tp). change (thumbprint_cbor tp') with (null_or_bytes tp').
    set (i := cbor_encode (CArr [CText c; _; _])). set (i' := cbor_encode (CArr [CText c'; _; _])). split.
    + intros H. assert (E : cbor_encode (CArr [CNull; CNull; CArr [CText DC_API_HANDOVER_TYPE_IDENTIFIER; CBytes (sha256 i)]])
        = cbor_encode (CArr [CNull; CNull; CArr [CText DC_API_HANDOVER_TYPE_IDENTIFIER; CBytes (sha256 i')]])) by congruence.
      apply encode_inj0 in E; [|sz|sz]. now injection E.
    + intros ->. reflexivity.
Qed.
Example c52_dc_api_ex : short "https://example.com" /\ short "nonce" /\ short_opt (Some "abc") /\ short_opt None.
Proof. repeat split. Qed.

(** C52: a redirect transcript is never equal to a Digital Credentials API transcript, nor is a thumbprint
    ever confused with its absence. *)
Lemma c52_flows_pf :
  forall (h : handover) (d : dc_handover),
    short (h_hash h) -> short (d_hash d) -> transcript_bytes h <> dc_transcript_bytes d.
Proof.
  intros h d Hh Hd. unfold transcript_bytes, dc_transcript_bytes, handover_bytes, dc_handover_bytes, handover_cbor, dc_handover_cbor.
  rewrite !transcript_is by (assumption || apply ids). intros H.
  assert (E : cbor_encode (CArr [CNull; CNull; CArr [CText HANDOVER_TYPE_IDENTIFIER; CBytes (h_hash h)]])
        = cbor_encode (CArr [CNull; CNull; CArr [CText DC_API_HANDOVER_TYPE_IDENTIFIER; CBytes (d_hash d)]])) by congruence.
  apply encode_inj0 in E; [discriminate| |]; sz.
Qed.
Example c52_flows_ex : short (h_hash (handover_new "c" "n" None "u")) /\ short (d_hash (dc_handover_new "o" "n" (Some "t"))).
Proof. exact c51_serialize_ex. Qed.

(* ------------------------------------------------------------ C53 *)
Definition header_item (v : cbor) : header :=
  match v with
  | CNull => HSimple 22 | CBytes b => HBytes (Some (len b)) | CText t => HText (Some (len t))
  | CArr l => HArray (Some (N.of_nat (length l)))
  end.
Lemma pull_item v r : sized v -> pull (cbor_encode v +:+ r) = Some (header_item v, item_body v +:+ r).
Proof.
  destruct v as [|b|t|l]; cbn [sized cbor_encode header_item item_body]; intros S; [reflexivity| | |]; rewrite sapp_assoc.
  - apply (pull_any 2 (len b)); [lia|]. apply head_any, head_is. now split.
  - apply (pull_any 3 (len t)); [lia|]. apply head_any, head_is. now split.
  - apply (pull_any 4 (N.of_nat (length l))); [lia|]. apply head_any, head_is. now split.
Qed.
Lemma next_item v r : sized v -> next_header (cbor_encode v +:+ r) = Some (header_item v, item_body v +:+ r).
Proof.
  intros S. apply next_header_iff. split; [destruct v; exact I|]. exists EmptyString, (cbor_encode v +:+ r).
  split; [constructor|]. split; [reflexivity|]. now apply pull_item.
Qed.
Lemma read_text_item v r : sized v -> text_items v ->
  read_text (cbor_encode v +:+ r) = match v with CText t => Some (t, r) | _ => None end.
Proof.
  intros S T. unfold read_text. rewrite (next_item _ _ S). destruct v; try reflexivity.
  cbn [header_item item_body read_string]. rewrite read_body_app. cbn [text_items] in T. now rewrite T.
Qed.
Lemma read_bytes_item v r : sized v ->
  read_bytes (cbor_encode v +:+ r) = match v with CBytes b => Some (b, r) | CArr [] => Some (EmptyString, r) | _ => None end.
Proof.
  intros S. unfold read_bytes. rewrite (next_item _ _ S). destruct v as [| | |[|x l]]; try reflexivity.
  - cbn [header_item item_body read_string]. now rewrite read_body_app.
  - cbn [header_item item_body]. cbn [read_u8s next_element map sconcat]. rewrite (proj2 (N.eqb_neq _ _)) by (cbn [length]; lia).
    rewrite sapp_assoc. cbn [sized fold_right] in S. unfold read_u8. rewrite u8_step, (pull_item x) by tauto. destruct x; reflexivity.
Qed.
Lemma read_unit_item v r : sized v ->
  read_unit (cbor_encode v +:+ r) = match v with CNull => Some r | _ => None end.
Proof. intros S. unfold read_unit. rewrite (next_item _ _ S). destruct v; reflexivity. Qed.
Lemma one_more n s : next_element (Some (N.of_nat (Datatypes.S n))) s = Some (Some (Some (N.of_nat n)), s).
Proof.
  unfold next_element. rewrite (proj2 (N.eqb_neq _ _)) by lia. replace (N.of_nat (Datatypes.S n) - 1)%N with (N.of_nat n) by lia. reflexivity.
Qed.

Lemma read_handover_item id v r h : sized v -> text_items v ->
  ((exists q, read_handover id (cbor_encode v +:+ r) = Some (h, q)) <->
   exists x rest, v = CArr (CText id :: x :: rest) /\ as_bytes x h).
Proof.
  intros S T. unfold read_handover. rewrite next_item by exact S.
  destruct v as [| | |[|x [|y l]]]; try (split; [intros (q & Q); discriminate|intros (? & ? & Q & _); discriminate]).
  - cbn [sized fold_right] in S. cbn [text_items fold_right] in T. cbn [header_item item_body length]. rewrite one_more.
    cbn [map sconcat]. rewrite sapp_assoc. rewrite read_text_item by tauto. split; [|intros (? & ? & Q & _); discriminate].
    intros (q & Q). destruct x; try discriminate. destruct (negb _); discriminate.
  - cbn [sized fold_right] in S. cbn [text_items fold_right] in T. cbn [header_item item_body length]. rewrite one_more.
    cbn [map sconcat]. rewrite !sapp_assoc. rewrite read_text_item by tauto. split.
    + intros (q & Q). destruct x as [| |t|]; try discriminate. destruct (String.eqb_spec t id) as [->|N]; [|discriminate].
      cbn [negb] in Q. rewrite one_more, read_bytes_item in Q by tauto. exists y, l. split; [reflexivity|].
      destruct y as [|b|?|[|? ?]]; [discriminate| |discriminate| |discriminate]; apply some_pair in Q as <-; [left; reflexivity|right; split; reflexivity].
    + intros (z & rest & E & B). injection E as -> -> ->. rewrite String.eqb_refl. cbn [negb]. rewrite one_more, read_bytes_item by tauto.
      destruct B as [->|[-> ->]]; eexists; reflexivity.
Qed.

(** C53: of the CBOR items the library writes, exactly the arrays that begin with the type identifier and bytes are read
    as a handover, and the bytes are the hash. *)
Lemma c53_handover_pf :
  forall (v : cbor) (s : string),
    encodes v s -> text_items v ->
    (forall h, handover_decode s = Some (mk_handover h) <-> exists x rest, v = CArr (CText "OpenID4VPHandover" :: x :: rest) /\ as_bytes x h)
    /\ (forall h, dc_handover_decode s = Some (mk_dc_handover h) <-> exists x rest, v = CArr (CText "OpenID4VPDCAPIHandover" :: x :: rest) /\ as_bytes x h).
Proof.
  intros v s E T. apply encodes_iff in E as [S ->].
  split; intros h; unfold handover_decode, dc_handover_decode; rewrite <- (sapp_nil_r (cbor_encode v));
    rewrite <- read_handover_item with (r := EmptyString) by assumption; (split;
    [destruct (read_handover _ _) as [[q r]|]; [|discriminate]; intros H; injection H as ->; now exists r
    |intros (q & Q); match type of Q with ?t = _ => change t with (read_handover HANDOVER_TYPE_IDENTIFIER (cbor_encode v +:+ EmptyString)) in Q || change t with (read_handover DC_API_HANDOVER_TYPE_IDENTIFIER (cbor_encode v +:+ EmptyString)) in Q end; now rewrite Q]).
Qed.

Example c53_handover_ex :
  let v := CArr [CText "OpenID4VPHandover"; CBytes "abc"] in
  encodes v (cbor_encode v) /\ text_items v /\ handover_decode (cbor_encode v) = Some (mk_handover "abc")
  /\ dc_handover_decode (cbor_encode v) = None.
Proof. cbv zeta. split; [apply encodes_encode; sz|]. split; [cbn; repeat split|]. split; vm_compute; reflexivity. Qed.

Lemma optional_unit_item n v r : sized v ->
  optional_unit (Some (N.of_nat (Datatypes.S n))) (cbor_encode v +:+ r) = match v with CNull => Some (Some (N.of_nat n), r) | _ => None end.
Proof. intros S. unfold optional_unit. rewrite one_more, read_unit_item by exact S. destruct v; reflexivity. Qed.
Lemma optional_unit_none s : optional_unit (Some 0%N) s = Some (Some 0%N, s).
Proof. reflexivity. Qed.
Lemma read_transcript_item id v r h : sized v -> text_items v ->
  ((exists q, read_transcript id (cbor_encode v +:+ r) = Some (h, q)) <->
   exists x rest rest', v = CArr (CNull :: CNull :: CArr (CText id :: x :: rest) :: rest') /\ as_bytes x h).
Proof.
  intros S T. unfold read_transcript. rewrite next_item by exact S.
  destruct v as [| | |l]; try (split; [intros (q & Q); discriminate|intros (? & ? & ? & Q & _); discriminate]).
  cbn [sized fold_right] in S. destruct S as [_ S]. cbn [text_items] in T. cbn [header_item item_body].
  destruct l as [|x l]; [split; [intros (q & Q); discriminate|intros (? & ? & ? & Q & _); discriminate]|].
  cbn [fold_right] in S, T. cbn [length map sconcat]. rewrite sapp_assoc, optional_unit_item by tauto.
  destruct x; try (split; [intros (q & Q); discriminate|intros (? & ? & ? & Q & _); discriminate]).
  destruct l as [|y l]; [split; [intros (q & Q); discriminate|intros (? & ? & ? & Q & _); discriminate]|].
  cbn [fold_right] in S, T. cbn [length map sconcat]. rewrite sapp_assoc, optional_unit_item by tauto.
  destruct y; try (split; [intros (q & Q); discriminate|intros (? & ? & ? & Q & _); discriminate]).
  destruct l as [|z l]; [split; [intros (q & Q); discriminate|intros (? & ? & ? & Q & _); discriminate]|].
  cbn [fold_right] in S, T. cbn [length map sconcat]. rewrite sapp_assoc, one_more.
  rewrite read_handover_item by tauto. split.
  - intros (x & rest & -> & B). now exists x, rest, l.
  - intros (x & rest & rest' & E & B). injection E as -> ->. now exists x, rest.
Qed.

(** C53: likewise exactly the arrays of two nulls and a handover are read as a transcript; a transcript of the
    other flow is refused. *)
Lemma c53_transcript_pf :
  forall (v : cbor) (s : string),
    encodes v s -> text_items v ->
    (forall h, transcript_decode s = Some (mk_handover h) <->
       exists x rest rest', v = CArr (CNull :: CNull :: CArr (CText "OpenID4VPHandover" :: x :: rest) :: rest') /\ as_bytes x h)
    /\ (forall h, dc_transcript_decode s = Some (mk_dc_handover h) <->
       exists x rest rest', v = CArr (CNull :: CNull :: CArr (CText "OpenID4VPDCAPIHandover" :: x :: rest) :: rest') /\ as_bytes x h).
Proof.
  intros v s E T. apply encodes_iff in E as [S ->].
  split; intros h; unfold transcript_decode, dc_transcript_decode; rewrite <- (sapp_nil_r (cbor_encode v));
    rewrite <- read_transcript_item with (r := EmptyString) by assumption; (split;
    [destruct (read_transcript _ _) as [[q r]|]; [|discriminate]; intros H; injection H as ->; now exists r
    |intros (q & Q); match type of Q with ?t = _ => change t with (read_transcript HANDOVER_TYPE_IDENTIFIER (cbor_encode v +:+ EmptyString)) in Q || change t with (read_transcript DC_API_HANDOVER_TYPE_IDENTIFIER (cbor_encode v +:+ EmptyString)) in Q end; now rewrite Q]).
Qed.

Example c53_transcript_ex :
  let v := CArr [CNull; CNull; CArr [CText "OpenID4VPDCAPIHandover"; CBytes "abc"]] in
  encodes v (cbor_encode v) /\ text_items v /\ dc_transcript_decode (cbor_encode v) = Some (mk_dc_handover "abc")
  /\ transcript_decode (cbor_encode v) = None.
Proof. cbv zeta. split; [apply encodes_encode; sz|]. split; [cbn; repeat split|]. split; vm_compute; reflexivity. Qed.

(** C53: what is written is read back. *)
Lemma c53_roundtrip_pf :
  forall (h : handover) (d : dc_handover),
    short (h_hash h) -> short (d_hash d) ->
    handover_decode (handover_bytes h) = Some h /\ dc_handover_decode (dc_handover_bytes d) = Some d
    /\ (exists t, transcript_bytes h = Ok t /\ transcript_decode t = Some h)
    /\ (exists t, dc_transcript_bytes d = Ok t /\ dc_transcript_decode t = Some d).
Proof.
  intros [h] [d] Hh Hd. cbn [h_hash d_hash] in *.
  assert (S : sized (handover_cbor (mk_handover h))) by (apply handover_sized; [assumption|apply ids]).
  assert (S' : sized (dc_handover_cbor (mk_dc_handover d))) by (apply handover_sized; [assumption|apply ids]).
  destruct (c51_serialize_pf (mk_handover h) (mk_dc_handover d) Hh Hd) as [E E'].
  split; [apply (c53_handover_pf _ _ (encodes_encode _ S)); [cbn; repeat split|eexists _, []; split; [reflexivity|now left]]|].
  split; [apply (c53_handover_pf _ _ (encodes_encode _ S')); [cbn; repeat split|eexists _, []; split; [reflexivity|now left]]|].
  assert (X : sized (CArr [CNull; CNull; handover_cbor (mk_handover h)])) by (cbn [sized fold_right length]; repeat split; apply S).
  assert (X' : sized (CArr [CNull; CNull; dc_handover_cbor (mk_dc_handover d)])) by (cbn [sized fold_right length]; repeat split; apply S').
  split; eexists; (split; [eassumption|]).
  - assert (T : text_items (CArr [CNull; CNull; handover_cbor (mk_handover h)])) by (cbn; repeat split).
    apply (proj2 (proj1 (c53_transcript_pf _ _ (encodes_encode _ X) T) h)). eexists _, (@nil cbor), (@nil cbor). split; [reflexivity|now left].
  - assert (T : text_items (CArr [CNull; CNull; dc_handover_cbor (mk_dc_handover d)])) by (cbn; repeat split).
    apply (proj2 (proj2 (c53_transcript_pf _ _ (encodes_encode _ X') T) d)). eexists _, (@nil cbor), (@nil cbor). split; [reflexivity|now left].
Qed.
Example c53_roundtrip_ex : short (h_hash (mk_handover "abc")) /\ short (d_hash (dc_handover_new "o" "n" (Some "t"))).
Proof. split; [reflexivity|apply short_digest]. Qed.

(* ------------------------------------------------------------ C53, all byte strings *)
(** C53: which byte strings are read, however they are written (tags, indefinite lengths, heads of any length): a handover
    is an array of at least two items that begins with the type identifier and bytes; a transcript is an array of at
    least three that begins with two nulls and a handover, or an array closed too early with a handover after it. *)
Lemma c53_bytes_pf :
  forall (s h : string),
    (handover_decode s = Some (mk_handover h) <-> begins_handover "OpenID4VPHandover" h s)
    /\ (dc_handover_decode s = Some (mk_dc_handover h) <-> begins_handover "OpenID4VPDCAPIHandover" h s)
    /\ (transcript_decode s = Some (mk_handover h) <-> begins_transcript "OpenID4VPHandover" h s \/ closed_early "OpenID4VPHandover" h s)
    /\ (dc_transcript_decode s = Some (mk_dc_handover h) <-> begins_transcript "OpenID4VPDCAPIHandover" h s \/ closed_early "OpenID4VPDCAPIHandover" h s).
Proof.
  intros s h.
  rewrite <- !read_handover_iff, <- !read_transcript_iff.
  unfold handover_decode, dc_handover_decode, transcript_decode, dc_transcript_decode,
    HANDOVER_TYPE_IDENTIFIER, DC_API_HANDOVER_TYPE_IDENTIFIER.
  repeat split;
    try (match goal with |- match ?x with _ => _ end = _ -> _ => destruct x as [[q r]|]; [|discriminate] end;
         intros H; injection H as ->; now exists r);
    (intros (r & ->); reflexivity).
Qed.

Example c53_bytes_ex :
  let s := of_bytes [152; 3; 120; 17]%N +:+ "OpenID4VPHandover" +:+ of_bytes [89; 0; 2; 1; 2; 246]%N in
  let s' := of_bytes [193; 159; 127; 106]%N +:+ "OpenID4VPH" +:+ of_bytes [103]%N +:+ "andover" +:+ of_bytes [255; 130; 24; 7; 194; 65; 9; 255]%N in
  handover_decode s = Some (mk_handover (of_bytes [1; 2]%N))
  /\ transcript_decode (of_bytes [131; 248; 22; 247]%N +:+ s) = Some (mk_handover (of_bytes [1; 2]%N))
  /\ transcript_decode (of_bytes [131; 249; 0; 22; 247]%N +:+ s) = None
  /\ handover_decode s' = Some (mk_handover (of_bytes [7; 9]%N))
  /\ transcript_decode (of_bytes [159; 246; 246]%N +:+ s') = Some (mk_handover (of_bytes [7; 9]%N))
  /\ handover_decode (of_bytes [130; 113]%N +:+ "OpenID4VPHandover" +:+ of_bytes [129; 25; 1; 0]%N) = None.
Proof. cbv zeta. repeat split; vm_compute; reflexivity. Qed.

(** C53: an empty array that is followed by a handover is read as a transcript, although it has neither the nulls nor
    the handover. *)
Lemma c53_empty_refuted_pf :
  exists s h, encodes (CArr [CText "OpenID4VPHandover"; CBytes h]) s /\ transcript_decode (indefinite 4 +:+ break +:+ break +:+ s) = Some (mk_handover h).
Proof.
  exists (cbor_encode (CArr [CText "OpenID4VPHandover"; CBytes "abc"])), "abc". split; [apply encodes_encode; sz|vm_compute; reflexivity].
Qed.

(* ------------------------------------------------------------ C54 *)
Lemma escape_plain s : plain_text s -> escape s = s.
Proof.
  induction s as [|c s IH]; intros H; [reflexivity|]. cbn [escape].
  rewrite IH by (intros d Hd; apply H; cbn; now rewrite Hd, orb_true_r).
  destruct (H c) as (L & Q & B); [cbn; now rewrite Ascii.eqb_refl|].
  assert (E : escape_char c = s1 c); [|now rewrite E].
  unfold escape_char.
  assert (X : forall n d, byte d = n -> c <> d -> (byte c =? n)%N = false).
  { intros n d <- N. apply N.eqb_neq. intros E. now apply byte_inj in E. }
  rewrite (X 34%N """"%char eq_refl Q), (X 92%N "\"%char eq_refl B).
  repeat match goal with |- context [(byte c =? ?n)%N] => rewrite (proj2 (N.eqb_neq (byte c) n)) by lia end.
  now rewrite (proj2 (N.ltb_ge _ _)).
Qed.

Lemma canonical_members key : (exists text, canonical_jwk key = Ok text) <-> exists o, thumbprint_members key o.
Proof.
  unfold canonical_jwk. split.
  - intros (text & H). apply rbind_ok in H as (kty & K & H). apply ok_or_ok, key_str_some in K.
    destruct (String.eqb_spec kty "EC") as [->|_]; [|destruct (String.eqb_spec kty "RSA") as [->|_]; [|discriminate]].
    + apply rbind_ok in H as (crv & C & H). apply rbind_ok in H as (x & X & H). apply rbind_ok in H as (y & Y & H).
      apply ok_or_ok, key_str_some in C, X, Y. eexists. eapply thumb_ec; eassumption.
    + apply rbind_ok in H as (e & E & H). apply rbind_ok in H as (n & N & H).
      apply ok_or_ok, key_str_some in E, N. eexists. eapply thumb_rsa; eassumption.
  - intros (o & [crv x y K C X Y|e n K E N]).
    + apply key_str_some in K, C, X, Y. rewrite K, C, X, Y. eexists. reflexivity.
    + apply key_str_some in K, E, N. rewrite K, E, N. eexists. reflexivity.
Qed.

(** The text hashed, in terms of the members. *)
Definition unescaped (o : obj) : string :=
  match o with
  | [(_, JStr crv); _; (_, JStr x); (_, JStr y)] =>
      "{""crv"":""" +:+ crv +:+ """,""kty"":""EC"",""x"":""" +:+ x +:+ """,""y"":""" +:+ y +:+ """}"
  | [(_, JStr e); _; (_, JStr n)] => "{""e"":""" +:+ e +:+ """,""kty"":""RSA"",""n"":""" +:+ n +:+ """}"
  | _ => ""
  end.
Lemma canonical_unescaped key o : thumbprint_members key o -> canonical_jwk key = Ok (unescaped o).
Proof.
  unfold canonical_jwk. intros [crv x y K C X Y|e n K E N].
  - apply key_str_some in K, C, X, Y. rewrite K, C, X, Y. reflexivity.
  - apply key_str_some in K, E, N. rewrite K, E, N. reflexivity.
Qed.
Lemma unescaped_plain key o : plain_members key -> thumbprint_members key o -> unescaped o = jprint (JObj o).
Proof.
  intros P [crv x y K C X Y|e n K E N].
  - assert (Hc : escape crv = crv) by (apply escape_plain, (P "crv"); [cbn; tauto|exact C]).
    assert (Hx : escape x = x) by (apply escape_plain, (P "x"); [cbn; tauto|exact X]).
    assert (Hy : escape y = y) by (apply escape_plain, (P "y"); [cbn; tauto|exact Y]).
    cbn [jprint map fst snd join]. unfold print_str. rewrite Hc, Hx, Hy. unfold unescaped, s1, dquote.
    change (escape "crv") with "crv". change (escape "kty") with "kty". change (escape "EC") with "EC". change (escape "x") with "x". change (escape "y") with "y".
    rewrite ?sapp_assoc. cbn [String.append]. rewrite ?sapp_assoc. cbn [String.append]. reflexivity.
  - assert (He : escape e = e) by (apply escape_plain, (P "e"); [cbn; tauto|exact E]).
    assert (Hn : escape n = n) by (apply escape_plain, (P "n"); [cbn; tauto|exact N]).
    cbn [jprint map fst snd join]. unfold print_str. rewrite He, Hn. unfold unescaped, s1, dquote.
    change (escape "kty") with "kty". change (escape "RSA") with "RSA". change (escape "e") with "e". change (escape "n") with "n".
    rewrite ?sapp_assoc. cbn [String.append]. rewrite ?sapp_assoc. cbn [String.append]. reflexivity.
Qed.

(** C54: the thumbprint is SHA-256 of the JSON text of the members RFC 7638 requires, in lexicographic order
    and without white space; it exists exactly when those members are there. *)
Lemma c54_rfc7638_pf :
  forall (key : obj) (t : string),
    plain_members key ->
    (jwk_thumbprint key = Ok t <-> exists o, thumbprint_members key o /\ t = sha256 (jprint (JObj o))).
Proof.
  intros key t P. unfold jwk_thumbprint. split.
  - intros H. destruct (canonical_jwk key) as [c|] eqn:E; [|discriminate].
    destruct (proj1 (canonical_members key)) as (o & O); [eexists; exact E|]. exists o. split; [exact O|].
    rewrite (canonical_unescaped _ _ O) in E. rewrite <- (unescaped_plain key o P O).
    assert (c = unescaped o) as -> by congruence. cbn [rmap] in H. congruence.
  - intros (o & O & ->). rewrite (canonical_unescaped _ _ O). cbn [rmap]. now rewrite (unescaped_plain key o P O).
Qed.

Definition rfc_key : obj :=
  [("alg", JStr "ECDH-ES"); ("crv", JStr "P-256"); ("kid", JStr "1"); ("kty", JStr "EC");
   ("x", JStr "DxiH5Q4Yx3UrukE2lWCErq8N8bqC9CHLLrAwLz5BmE0"); ("y", JStr "XtLM4-3h5o3HUH0MHVJV0kyq0iBlrBwlh8qEDMZ4-Pc")].
Lemma plain_check s : str_all (fun c => (32 <=? byte c)%N && negb (Ascii.eqb c """") && negb (Ascii.eqb c "\")) s = true -> plain_text s.
Proof.
  intros H c Hc. pose proof (has_char_iff c s) as [I _]. destruct (I Hc) as (a & b & ->).
  rewrite str_all_app in H. cbn [str_all] in H. apply andb_true_iff in H as [_ H]. apply andb_true_iff in H as [H _].
  apply andb_true_iff in H as [H H3]. apply andb_true_iff in H as [H1 H2]. apply N.leb_le in H1.
  repeat split; [exact H1|intros ->; discriminate|intros ->; discriminate].
Qed.
Example c54_rfc7638_ex :
  plain_members rfc_key
  /\ jwk_thumbprint rfc_key = Ok (sha256 "{""crv"":""P-256"",""kty"":""EC"",""x"":""DxiH5Q4Yx3UrukE2lWCErq8N8bqC9CHLLrAwLz5BmE0"",""y"":""XtLM4-3h5o3HUH0MHVJV0kyq0iBlrBwlh8qEDMZ4-Pc""}").
Proof.
  split; [|vm_compute; reflexivity]. intros m Hm s Hs. apply plain_check.
  cbn [In] in Hm. destruct Hm as [<-|[<-|[<-|[<-|[<-|[]]]]]]; unfold text_at in Hs; vm_compute in Hs; try discriminate; injection Hs as <-; vm_compute; reflexivity.
Qed.

(** C54: nothing else of the key enters, whatever the member values. *)
Lemma c54_depends_pf :
  forall (key key' : obj) (o : obj),
    thumbprint_members key o -> thumbprint_members key' o -> jwk_thumbprint key = jwk_thumbprint key'.
Proof.
  intros key key' o H H'. unfold jwk_thumbprint. now rewrite (canonical_unescaped _ _ H), (canonical_unescaped _ _ H').
Qed.

Example c54_depends_ex :
  exists o, thumbprint_members rfc_key o /\ thumbprint_members (obj_insert "kid" (JStr "2") (obj_insert "use" (JStr "enc") rfc_key)) o.
Proof. eexists. split; eapply thumb_ec; reflexivity. Qed.

Lemma quote_free s : plain_text s -> has_char """" s = false.
Proof. intros P. destruct (has_char """" s) eqn:E; [|reflexivity]. now destruct (P _ E) as (_ & N & _). Qed.
Lemma quote_split a b r q : plain_text a -> plain_text b ->
  a +:+ String """" r = b +:+ String """" q -> a = b /\ r = q.
Proof.
  intros Pa Pb H.
  assert (S : forall a r, plain_text a -> split_once """" (a +:+ String """" r) = Some (a, r)).
  { intros a0 r0 P. apply split_once_some. split; [reflexivity|]. now apply quote_free. }
  pose proof (S a r Pa) as X. pose proof (S b q Pb) as Y. rewrite H, Y in X. split; congruence.
Qed.

(** C54: for keys whose members need no escapes, different members give different hashed texts. *)
Lemma c54_injective_pf :
  forall (key key' : obj) (o o' : obj),
    plain_members key -> plain_members key' -> thumbprint_members key o -> thumbprint_members key' o' ->
    (jprint (JObj o) = jprint (JObj o') -> o = o')
    /\ (jwk_thumbprint key = jwk_thumbprint key' <-> sha256 (jprint (JObj o)) = sha256 (jprint (JObj o'))).
Proof.
  intros key key' o o' P P' H H'.
  rewrite <- (unescaped_plain key o P H), <- (unescaped_plain key' o' P' H'). split.
  - assert (Q : forall m s, In m ["crv"; "x"; "y"; "e"; "n"] -> text_at m key s -> plain_text s) by (intros m s I; now apply P).
    assert (Q' : forall m s, In m ["crv"; "x"; "y"; "e"; "n"] -> text_at m key' s -> plain_text s) by (intros m s I; now apply P').
    destruct H as [crv x y K C X Y|e n K E N]; destruct H' as [crv' x' y' K' C' X' Y'|e' n' K' E' N'];
      unfold unescaped; cbn [String.append]; intros T; try discriminate T.
    + repeat (injection T as T). apply quote_split in T as [-> T]; [|eapply Q; [|exact C]; cbn; tauto|eapply Q'; [|exact C']; cbn; tauto].
      repeat (injection T as T). apply quote_split in T as [-> T]; [|eapply Q; [|exact X]; cbn; tauto|eapply Q'; [|exact X']; cbn; tauto].
      repeat (injection T as T). apply quote_split in T as [-> T]; [|eapply Q; [|exact Y]; cbn; tauto|eapply Q'; [|exact Y']; cbn; tauto].
      reflexivity.
    + repeat (injection T as T). apply quote_split in T as [-> T]; [|eapply Q; [|exact E]; cbn; tauto|eapply Q'; [|exact E']; cbn; tauto].
      repeat (injection T as T). apply quote_split in T as [-> T]; [|eapply Q; [|exact N]; cbn; tauto|eapply Q'; [|exact N']; cbn; tauto].
      reflexivity.
  - unfold jwk_thumbprint. rewrite (canonical_unescaped _ _ H), (canonical_unescaped _ _ H'). cbn [rmap]. split; congruence.
Qed.
Example c54_injective_ex : plain_members rfc_key /\ exists o, thumbprint_members rfc_key o.
Proof. split; [exact (proj1 c54_rfc7638_ex)|]. destruct c54_depends_ex as (o & H & _). eauto. Qed.

(** C54: because members are not escaped, two different keys can have the same hashed text, hence the same
    thumbprint. *)
Lemma c54_quotes_refuted_pf :
  exists (key key' : obj) (o o' : obj),
    thumbprint_members key o /\ thumbprint_members key' o' /\ o <> o' /\ jprint (JObj o) <> jprint (JObj o')
    /\ jwk_thumbprint key = jwk_thumbprint key'.
Proof.
  exists [("crv", JStr "P-256"); ("kty", JStr "EC"); ("x", JStr "a"",""y"":""b"); ("y", JStr "c")].
  exists [("crv", JStr "P-256"); ("kty", JStr "EC"); ("x", JStr "a"); ("y", JStr "b"",""y"":""c")].
  eexists. eexists. split; [eapply thumb_ec; reflexivity|]. split; [eapply thumb_ec; reflexivity|].
  split; [discriminate|]. split; [vm_compute; discriminate|vm_compute; reflexivity].
Qed.

(* ------------------------------------------------------------ C55 *)
Lemma other_use key : not_other_use key = true <-> maybe_enc key.
Proof.
  unfold not_other_use, maybe_enc. destruct (key_str "use" key) as [u|] eqn:E.
  - rewrite String.eqb_eq. split.
    + intros -> w W. apply key_str_some in W. congruence.
    + intros H. apply H. now apply key_str_some.
  - split; [|reflexivity]. intros _ u U. apply key_str_some in U. congruence.
Qed.
Lemma first_thumb keys t :
  first_thumbprint keys = Some t <->
  exists pre key post, keys = pre ++ key :: post /\ maybe_enc key /\ jwk_thumbprint key = Ok t
    /\ forall k, In k pre -> ~ (maybe_enc k /\ exists t', jwk_thumbprint k = Ok t').
Proof.
  induction keys as [|k keys IH]; cbn [first_thumbprint].
  - split; [discriminate|]. intros (pre & key & post & E & _). destruct pre; discriminate.
  - destruct (not_other_use k) eqn:U; [destruct (jwk_thumbprint k) as [t'|] eqn:T|]; cbv iota.
    + split.
      * intros E. injection E as ->. exists [], k, keys. split; [reflexivity|]. split; [now apply other_use|]. split; [exact T|]. intros ? [].
      * intros ([|a pre] & key & post & E & M & T' & F).
        -- injection E as -> ->. congruence.
        -- injection E as -> ->. exfalso. apply (F a); [now left|]. split; [now apply other_use|eauto].
    + rewrite IH. split.
      * intros (pre & key & post & -> & M & T' & F). exists (k :: pre), key, post. split; [reflexivity|]. do 2 (split; [assumption|]).
        intros k' [<-|Hk]; [|now apply F]. intros [_ (t'' & E)]. congruence.
      * intros ([|a pre] & key & post & E & M & T' & F).
        -- injection E as -> ->. congruence.
        -- injection E as -> ->. exists pre, key, post. split; [reflexivity|]. do 2 (split; [assumption|]).
           intros k' Hk. apply F. now right.
    + rewrite IH. split.
      * intros (pre & key & post & -> & M & T' & F). exists (k :: pre), key, post. split; [reflexivity|]. do 2 (split; [assumption|]).
        intros k' [<-|Hk]; [|now apply F]. intros [M' _]. apply other_use in M'. congruence.
      * intros ([|a pre] & key & post & E & M & T' & F).
        -- injection E as -> ->. apply other_use in M. congruence.
        -- injection E as -> ->. exists pre, key, post. split; [reflexivity|]. do 2 (split; [assumption|]).
           intros k' Hk. apply F. now right.
Qed.
Lemma thumb_request a t :
  encryption_jwk_thumbprint a = Some t <->
  exists cm keys, client_metadata (aro_to_obj a) cm /\ client_keys cm keys /\ first_thumbprint keys = Some t.
Proof.
  assert (PE : forall cm keys, parsing_error (cm_jwks cm) = Ok keys <-> client_keys cm keys).
  { intros cm keys. rewrite <- keys_get. unfold cm_jwks, parsing_error. destruct (uo_get p_jwks cm) as [[x|e]|]; cbn; split; congruence. }
  unfold encryption_jwk_thumbprint. split.
  - destruct (aro_client_metadata a) as [cm|] eqn:C; [|discriminate].
    destruct (parsing_error (cm_jwks cm)) as [keys|] eqn:K; [|discriminate]. intros T. exists cm, keys. split; [|split; [now apply PE|exact T]].
    apply metadata_get. unfold aro_client_metadata in C. unfold resolve_client_metadata. destruct (aro_get p_client_metadata a); [exact C|discriminate].
  - intros (cm & keys & C & K & T). apply metadata_get in C. pose proof K as K'. apply PE in K.
    unfold resolve_client_metadata in C. unfold aro_client_metadata.
    destruct (aro_get p_client_metadata a) as [r|].
    + subst r. now rewrite K.
    + injection C as <-. destruct K' as (v & V & _). discriminate.
Qed.

(** C55: the thumbprint that enters the transcript is that of the first key of the client's metadata that is
    not marked for another use and whose thumbprint can be computed. *)
Lemma c55_which_key_pf :
  forall (a : aro) (t : string),
    encryption_jwk_thumbprint a = Some t <->
    exists cm keys pre key post,
      client_metadata (aro_to_obj a) cm /\ client_keys cm keys /\ keys = pre ++ key :: post
      /\ maybe_enc key /\ jwk_thumbprint key = Ok t
      /\ forall k, In k pre -> ~ (maybe_enc k /\ exists t', jwk_thumbprint k = Ok t').
Proof.
  intros a t. rewrite thumb_request. split.
  - intros (cm & keys & C & K & T). apply first_thumb in T as (pre & key & post & T). exists cm, keys, pre, key, post. tauto.
  - intros (cm & keys & pre & key & post & C & K & T). exists cm, keys. split; [exact C|]. split; [exact K|].
    apply first_thumb. exists pre, key, post. exact T.
Qed.

Definition thumb_of (keys : list obj) : res (option string) :=
  let? a := aro_of_obj simple_parse (enc_request [] keys) in Ok (encryption_jwk_thumbprint a).
Definition ec_key (crv x : string) : obj :=
  [("alg", JStr "ECDH-ES"); ("crv", JStr crv); ("kty", JStr "EC"); ("x", JStr x); ("y", JStr "y")].
Example c55_which_key_ex :
  thumb_of [obj_insert "use" (JStr "sig") (ec_key "P-256" "1"); [("kty", JStr "OKP")]; ec_key "P-256" "2"; ec_key "P-256" "3"]
  = Ok (Some (sha256 "{""crv"":""P-256"",""kty"":""EC"",""x"":""2"",""y"":""y""}")).
Proof. vm_compute. reflexivity. Qed.

(** C55: that key can be another one than the key the response is encrypted to. *)
Lemma c55_differ_refuted_pf :
  exists (a : aro) (cm key : obj) (keys : list obj) (t t' : string),
    client_metadata (aro_to_obj a) cm /\ client_keys cm keys /\ first_key keys key
    /\ encryption_jwk_thumbprint a = Some t /\ jwk_thumbprint key = Ok t' /\ t <> t'.
Proof.
  set (keys := [ec_key "P-384" "1"; ec_key "P-256" "2"]).
  destruct (aro_of_obj simple_parse (enc_request [] keys)) as [a|] eqn:E; [|vm_compute in E; discriminate].
  exists a. vm_compute in E. injection E as <-. exists [("jwks", JObj [("keys", JArr (map JObj keys))])], (ec_key "P-256" "2"), keys.
  eexists. eexists. split; [reflexivity|]. split; [eexists; split; [reflexivity|left; eexists; split; reflexivity]|].
  split; [exists [ec_key "P-384" "1"], []; split; [reflexivity|]; split|].
  - repeat split. intros u U. discriminate U.
  - intros k [<-|[]] (_ & H & _). discriminate H.
  - split; [vm_compute; reflexivity|]. split; [vm_compute; reflexivity|]. discriminate.
Qed.

(** C55: they agree when the first key not marked for another use is an EC key on P-256 for ECDH-ES with its
    coordinates. *)
Lemma c55_agree_pf :
  forall (a : aro) (cm key : obj) (pre post : list obj) (x y : string),
    client_metadata (aro_to_obj a) cm -> client_keys cm (pre ++ key :: post) ->
    (forall k, In k pre -> ~ maybe_enc k) ->
    encryption_key key -> text_at "kty" key "EC" -> text_at "x" key x -> text_at "y" key y ->
    first_key (pre ++ key :: post) key
    /\ exists t, jwk_thumbprint key = Ok t /\ encryption_jwk_thumbprint a = Some t.
Proof.
  intros a cm key pre post x y C K F E T X Y. split.
  - exists pre, post. split; [reflexivity|]. split; [exact E|]. intros k Hk (_ & _ & U). now apply (F k).
  - destruct (proj2 (canonical_members key)) as (c & Hc).
    { eexists. eapply thumb_ec; try eassumption. apply E. }
    exists (sha256 c). assert (J : jwk_thumbprint key = Ok (sha256 c)) by (unfold jwk_thumbprint; now rewrite Hc).
    split; [exact J|]. apply c55_which_key_pf. exists cm, (pre ++ key :: post), pre, key, post.
    do 2 (split; [assumption|]). split; [reflexivity|]. split; [exact (proj2 (proj2 E))|]. split; [exact J|].
    intros k Hk [M _]. now apply (F k).
Qed.

Example c55_agree_ex :
  let keys := [obj_insert "use" (JStr "sig") (ec_key "P-256" "1")] ++ ec_key "P-256" "2" :: [] in
  match aro_of_obj simple_parse (enc_request [] keys) with
  | Ok a => exists cm, client_metadata (aro_to_obj a) cm /\ client_keys cm keys
  | Err _ => False
  end
  /\ ~ maybe_enc (obj_insert "use" (JStr "sig") (ec_key "P-256" "1")) /\ encryption_key (ec_key "P-256" "2").
Proof.
  cbv zeta. split.
  - destruct (aro_of_obj simple_parse _) as [a|] eqn:E; [|vm_compute in E; discriminate].
    vm_compute in E. injection E as <-.
    exists [("jwks", JObj [("keys", JArr (map JObj ([obj_insert "use" (JStr "sig") (ec_key "P-256" "1")] ++ ec_key "P-256" "2" :: [])))])].
    split; [reflexivity|]. eexists. split; [reflexivity|left; eexists; split; reflexivity].
  - split; [intros H; specialize (H "sig" eq_refl); discriminate|]. repeat split. intros u U. discriminate U.
Qed.
