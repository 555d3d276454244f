(** The order of the members of JSON objects (C119) *)
From Coq Require Import Lia Sorting.Permutation.
From Verif Require Import Base BaseFacts Utf8 Json JsonFacts JsonText JsonTextFacts Serde Url Object Formats Params ParamFacts Metadata Dcql Effects Jwt Request Response
  Verify Jwe ExMatcher JsonOrder SpecOrder LikeFacts.
From Verif Require Import PfOrder.

(** C119: an object built by inserting and removing members holds the same members under the same names, whether its map keeps the
    names sorted or in order of insertion, whatever the calls. *)
Theorem c119_objects : forall cs cs', Forall2 same_call cs cs' ->
  alike (JObj (fold_left sorted_call cs [])) (JObj (fold_left ordered_call cs' [])).
Proof. exact c119_objects_pf. Qed.
Print Assumptions c119_objects.

Example c119_objects_witness :
  exists cs cs', Forall2 same_call cs cs' /\ map fst (fold_left sorted_call cs []) = ["a"; "c"; "d"] /\ map fst (fold_left ordered_call cs' []) = ["d"; "a"; "c"].
Proof. exact c119_objects_ex. Qed.

(** C119: a text is read by both kinds of map or by neither, and then to the same value but for the order of members; and when two
    such values can be written, both texts read as one and the same value, and a map that keeps the order reads exactly the members as written. *)
Theorem c119_text :
  (forall s, both alike (json_of_text s) (io_of_text s))
  /\ (forall a b, alike a b -> writable a -> writable b /\ json_of_text (jprint a) = json_of_text (jprint b) /\ io_of_text (jprint b) = Some b).
Proof. exact c119_text_pf. Qed.
Print Assumptions c119_text.

Example c119_text_witness : json_of_text (jprint (JObj toy_ordered)) = Some (JObj toy_sorted) /\ io_of_text (jprint (JObj toy_ordered)) = Some (JObj toy_ordered) /\ map fst toy_sorted <> map fst toy_ordered.
Proof. exact c119_text_ex. Qed.

(** C119: reading a request object, whatever the URL parser: both orders of its members are refused with one error, or give requests
    that agree in every field and hold the same parameters. *)
Theorem c119_request : forall up o o', alike (JObj o) (JObj o') -> agree (like_request alike) (aro_of_obj up o) (aro_of_obj up o').
Proof. exact c119_request_pf. Qed.
Print Assumptions c119_request.

Example c119_request_witness : option_map ro_mode (toy_reads toy_sorted) = Some DirectPostJwt /\ option_map ro_mode (toy_reads toy_ordered) = Some DirectPostJwt.
Proof. exact c119_request_ex. Qed.

(** C119: the same for wallet metadata. *)
Theorem c119_metadata : forall up o o', alike (JObj o) (JObj o') -> agree (like_metadata alike) (wm_of_obj up o) (wm_of_obj up o').
Proof. exact c119_metadata_pf. Qed.
Print Assumptions c119_metadata.

Example c119_metadata_witness :
  option_map (fun w => map fst (wm_formats w)) (toy_wallet_reads toy_wm_sorted) = Some [DcSdJwt; MsoMDoc]
  /\ option_map (fun w => map fst (wm_formats w)) (toy_wallet_reads toy_wm_ordered) = Some [MsoMDoc; DcSdJwt].
Proof. exact c119_metadata_ex. Qed.

(** C119: what a wallet decides about a request from its metadata does not depend on the order of the members of either. *)
Theorem c119_gate : forall w w' a a', (like_metadata alike) w w' -> (like_request alike) a a' -> validate_against_metadata w a = validate_against_metadata w' a'.
Proof. exact c119_gate_pf. Qed.
Print Assumptions c119_gate.

Example c119_gate_witness :
  match toy_wallet_reads toy_wm_sorted, toy_reads toy_ordered with Some w, Some a => validate_against_metadata w a | _, _ => Err "" end = Ok tt.
Proof. exact c119_gate_ex. Qed.

(** C119: the query a wallet gets out of the request is the same but for the order inside [meta]. *)
Theorem c119_query : forall a a', (like_request alike) a a' -> both (agree (like_query alike)) (aro_dcql a) (aro_dcql a').
Proof. exact c119_query_pf. Qed.
Print Assumptions c119_query.

Example c119_query_witness : option_map (fun a => match aro_dcql a with Some (Ok q) => map (fun c => map fst (cq_meta c)) (dq_credentials q) | _ => [] end) (toy_reads toy_sorted) = Some [["purpose"; "vct_values"]]
  /\ option_map (fun a => match aro_dcql a with Some (Ok q) => map (fun c => map fst (cq_meta c)) (dq_credentials q) | _ => [] end) (toy_reads toy_ordered) = Some [["vct_values"; "purpose"]].
Proof. exact c119_query_ex. Qed.

(** C119: and the example wallet then chooses the same credentials, whatever it holds. *)
Theorem c119_matcher : forall lower store q q', (like_query alike) q q' -> match_query lower store q = match_query lower store q'.
Proof. exact c119_matcher_pf. Qed.
Print Assumptions c119_matcher.

Example c119_matcher_witness :
  option_map (fun a => match aro_dcql a with Some (Ok q) => match_query (fun s => s) [mk_credential "1" DcSdJwt (Some "pid") None "raw" []] q | _ => Err "" end) (toy_reads toy_ordered) = Some (Ok [("pid", ["raw"])]).
Proof. exact c119_matcher_ex. Qed.

(** C119: an encrypted answer is built from the request in the same way in either order: same key, same algorithm, same method, same
    content, and the same error if there is one; whatever the checks on keys and the cipher. *)
Theorem c119_encrypted : forall jwk_ok encrypt a a' vp st, like_request alike a a' -> writable (JObj (ro_inner a)) ->
  build_encrypted_response jwk_ok encrypt a vp st = build_encrypted_response jwk_ok encrypt a' vp st.
Proof. exact c119_encrypted_pf. Qed.
Print Assumptions c119_encrypted.

Example c119_encrypted_witness :
  option_map (fun a => build_encrypted_response (fun _ => true) (fun h c k => Ok (jprint (JObj h))) a [] None) (toy_reads toy_ordered)
  = Some (Ok (Jwt "{""alg"":""ECDH-ES"",""enc"":""A128GCM"",""typ"":""JWT""}")) /\ parse_raw (jprint (JObj toy_ordered)) = Some (JObj toy_ordered).
Proof. exact c119_encrypted_ex. Qed.

(** C119: a presentation is read from both orders or from neither, and then holds the same items under each identifier. *)
Theorem c119_token : forall j j', alike j j' -> decides (fun t t' => forall id, vp_get id t = vp_get id t') (vp_of_json j) (vp_of_json j').
Proof. exact c119_token_pf. Qed.
Print Assumptions c119_token.

Example c119_token_witness :
  rmap (map fst) (vp_of_json (JObj [("b", JArr [JStr "x"]); ("a", JArr [])])) = Ok ["b"; "a"] /\ rmap (map fst) (vp_of_json (JObj [("a", JArr []); ("b", JArr [JStr "x"])])) = Ok ["a"; "b"].
Proof. exact c119_token_ex. Qed.

(** C119: but the format a wallet derives from a description it does not know is the name of its first member: one text gives
    different formats with the two kinds of map. *)
Theorem c119_designation_refuted : exists s c c',
  option_map cf_of_json (json_of_text s) = Some (Ok c) /\ option_map cf_of_json (io_of_text s) = Some (Ok c') /\ cf_designation c <> cf_designation c'.
Proof. exact c119_designation_refuted_pf. Qed.
Print Assumptions c119_designation_refuted.
