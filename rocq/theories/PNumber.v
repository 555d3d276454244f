(** Non-integer numbers in JSON (C120) *)
From Verif Require Import Base BaseFacts Utf8 Json JsonFacts JsonText JsonTextFacts Serde Url Object Formats Params ParamFacts Metadata Dcql Effects Jwt Request Response
  Verify Jwe ExMatcher JsonOrder SpecOrder LikeFacts PfOrder JsonNumber SpecNumber.
From Verif Require Import PfNumber.

(** C120: whatever becomes of non-integer numbers when they are read (also if some are refused): a text that is no JSON stays refused; a
    text that is read gives the value of the model but for those numbers; if no number is refused no text is; and a text with integers
    only is read exactly as in the model. *)
Theorem c120_text : forall conv s,
  (json_of_text s = None -> float_of_text conv s = None)
  /\ (forall j, float_of_text conv s = Some j -> exists j0, json_of_text s = Some j0 /\ roughly j0 j)
  /\ ((forall l, conv l <> None) -> float_of_text conv s = None -> json_of_text s = None)
  /\ (forall j0, parse_raw s = Some j0 -> integral j0 -> float_of_text conv s = json_of_text s).
Proof. exact c120_text_pf. Qed.
Print Assumptions c120_text.

Example c120_text_witness :
  float_of_text short "[1.10,2]" = Some (JArr [JFloat "1.1"; JInt 2]) /\ float_of_text short "[1e999]" = None
  /\ json_of_text "[1e999]" = Some (JArr [JFloat "1e999"]) /\ float_of_text short "{""b"":1,""a"":[-5]}" = json_of_text "{""b"":1,""a"":[-5]}".
Proof. exact c120_text_ex. Qed.

(** C120: where a value holds integers only, being the same but for other numbers is being the same. *)
Theorem c120_integers : forall a b, integral a -> roughly a b -> alike a b.
Proof. exact c120_integers_pf. Qed.
Print Assumptions c120_integers.

Example c120_integers_witness : integral (JArr [JInt 3; JObj [("a", JStr "1.10")]]) /\ ~ integral (JArr [JInt 3; JObj [("a", JFloat "1.10")]]).
Proof. exact c120_integers_ex. Qed.

(** C120: request objects that differ in such numbers only, anywhere inside, are both refused with one error or give requests equal
    in every field. *)
Theorem c120_request : forall up o o', roughly (JObj o) (JObj o') -> agree (like_request roughly) (aro_of_obj up o) (aro_of_obj up o').
Proof. exact c120_request_pf. Qed.
Print Assumptions c120_request.

Example c120_request_witness :
  option_map (fun a => obj_get "extra" (ro_inner a)) (toy_request_as (float_of_text short)) = Some (Some (JArr [JFloat "1.1"; JObj [("deep", JFloat "2.5")]]))
  /\ option_map ro_nonce (toy_request_as (float_of_text short)) = Some "n" /\ option_map ro_nonce (toy_request_as json_of_text) = Some "n".
Proof. exact c120_request_ex. Qed.

(** C120: the same for wallet metadata. *)
Theorem c120_metadata : forall up o o', roughly (JObj o) (JObj o') -> agree (like_metadata roughly) (wm_of_obj up o) (wm_of_obj up o').
Proof. exact c120_metadata_pf. Qed.
Print Assumptions c120_metadata.

Example c120_metadata_witness :
  let o n := [("authorization_endpoint", JStr "openid4vp://"); ("vp_formats_supported", JObj [("mso_mdoc", JObj [("v", JFloat n)])])] in
  option_map (fun w => map fst (wm_formats w)) (toy_wallet_reads (o "1.10")) = Some [MsoMDoc] /\ option_map (fun w => map fst (wm_formats w)) (toy_wallet_reads (o "1.1")) = Some [MsoMDoc].
Proof. exact c120_metadata_ex. Qed.

(** C120: and the wallet's decision from its metadata is the same. *)
Theorem c120_gate : forall w w' a a', like_metadata roughly w w' -> like_request roughly a a' -> validate_against_metadata w a = validate_against_metadata w' a'.
Proof. exact c120_gate_pf. Qed.
Print Assumptions c120_gate.

Example c120_gate_witness :
  match toy_wallet_reads toy_wm_sorted, toy_request_as (float_of_text short) with Some w, Some a => validate_against_metadata w a | _, _ => Err "" end = Ok tt.
Proof. exact c120_gate_ex. Qed.

(** C120: so are the credential query but for numbers inside [meta], *)
Theorem c120_query : forall a a', like_request roughly a a' -> both (agree (like_query roughly)) (aro_dcql a) (aro_dcql a').
Proof. exact c120_query_pf. Qed.
Print Assumptions c120_query.

Example c120_query_witness :
  option_map (fun a => match aro_dcql a with Some (Ok q) => map (fun c => obj_get "w" (cq_meta c)) (dq_credentials q) | _ => [] end) (toy_request_as (float_of_text short)) = Some [Some (JFloat "1.1")].
Proof. exact c120_query_ex. Qed.

(** C120: and what the example wallet selects for it. *)
Theorem c120_matcher : forall lower store q q', like_query roughly q q' -> match_query lower store q = match_query lower store q'.
Proof. exact c120_matcher_pf. Qed.
Print Assumptions c120_matcher.

Example c120_matcher_witness :
  option_map (fun a => match aro_dcql a with Some (Ok q) => match_query (fun s => s) [mk_credential "1" DcSdJwt (Some "pid") None "raw" []] q | _ => Err "" end) (toy_request_as (float_of_text short)) = Some (Ok [("pid", ["raw"])]).
Proof. exact c120_matcher_ex. Qed.

(** C120: a presentation is read from both or from neither, with the same items but for the numbers inside them. *)
Theorem c120_token : forall j j', roughly j j' -> decides (like_token roughly) (vp_of_json j) (vp_of_json j').
Proof. exact c120_token_pf. Qed.
Print Assumptions c120_token.

Example c120_token_witness :
  option_map vp_of_json (float_of_text short "{""q"":[{""n"":1.10},""x""]}") = Some (Ok [("q", [VpObject [("n", JFloat "1.1")]; VpString "x"])]).
Proof. exact c120_token_ex. Qed.

(** C120: but an object presented as a credential is not passed on as it was written: with numbers read as [f64] its 1.10 leaves as 1.1. *)
Theorem c120_rewritten_refuted : exists conv s,
  (forall l l', conv l = Some l' -> conv l' = Some l')
  /\ option_map (rmap vp_print) (option_map vp_of_json (json_of_text s)) = Some (Ok s)
  /\ exists s', option_map (rmap vp_print) (option_map vp_of_json (float_of_text conv s)) = Some (Ok s') /\ s' <> s.
Proof. exact c120_rewritten_refuted_pf. Qed.
Print Assumptions c120_rewritten_refuted.
