(** The end-to-end test of /repo (tests/e2e.rs:22-98 with tests/jwt_vc.rs:27-179), run on the model; see RepoTests.v. *)
From Verif Require Import Base Json JsonText Serde Url Object Formats Dcql Params Effects Jwt Request Metadata Response Verify Did
  Client Signer Session Builder Wallet RepoTests.

(** The verifier's key; signatures are left to a function that names the key. jwt_vc.rs:28-50. *)
Definition verifier_did : string := "did:key:zDnaeaDj3YpPR4JXos2kCCNPS86hdELeN5PZh97KGkoFzUtGn".
Definition verifier_did_vm : string := verifier_did +:+ "#zDnaeaDj3YpPR4JXos2kCCNPS86hdELeN5PZh97KGkoFzUtGn".
Definition key_signer : signer string := mk_signer (Ok "ES256") (Ok "key") (fun m => "key" +:+ m).
Definition key_signed (k alg m sig : string) : bool := String.eqb sig (k +:+ m).
Definition did_key (vm : string) : res string := if String.eqb vm verifier_did_vm then Ok "key" else Err "not resolved".
Definition did_client_of_test : res client := did_client String.eqb did_key verifier_did_vm key_signer.

(** The wallet's metadata, jwt_vc.rs:66-87. *)
Definition wallet_metadata_of_test : res wallet_metadata := wm_of_json url_of (js
"{""authorization_endpoint"":""openid4vp:"",""client_id_prefixes_supported"":[""decentralized_identifier""],""request_object_signing_alg_values_supported"":[""ES256""],""response_types_supported"":[""vp_token""],""vp_formats_supported"":{""jwt_vc_json"":{""alg_values_supported"":[""ES256""]}}}").

(** The query, e2e.rs:27-44. *)
Definition query_of_test : dcql :=
  dcql_new [mk_cred "did-key-id" JwtVcJson [] (Some [claims_new [PeStr "credentialSubject"; PeStr "id"]]) None None None None].

(** [w3c_vc_did_client_direct_post], e2e.rs:22-98: the status before the answer, what the wallet finds in the request,
    the redirect it is given, the path the answer went to and the status after it. The session id is 7. *)
Definition course : res (status * (nat * list string * response_type * response_mode) * option url * string * status) :=
  let? client := did_client_of_test in
  let? submission := ok_or (url_of "http://example.com/submission") "url" in
  let? verifier := vb_build (vb_with_store (vb_with_submission submission (vb_with_client client vb_new))) in
  let? metadata := wallet_metadata_of_test in
  let builder := rb_with_param p_client_metadata [] (rb_with_param p_nonce "random_nonce" (rb_with_param p_response_type RtVpToken
    (rb_with_param p_response_mode DirectPost (rb_with_dcql query_of_test (rb_new verifier))))) in
  match build_with_session_id url_of builder 7%N metadata false [] with
  | (m, Ok request_url) =>
      let hooks h a jwt := match h, jwt with
                           | HDid, Some j => verify_with_resolver (fun _ => Some true) key_signed did_key metadata a j (Some [verifier_did])
                           | _, _ => Err "not supported"
                           end in
      let wallet := mk_wallet metadata (fun _ => Ok (mk_resp 200 "")) hooks in
      let? request := snd (validate_request url_of (fun _ => Some true) (fun _ => true) wallet request_url) in
      let? found := match aro_dcql request with Some r => r | None => Err "no query" end in
      let response := Unencoded (mk_unencoded (vp_with_credential "did-key-id" [VpString "eyJhbGciOiJFUzI1NiJ9.e30.c2ln"]) None) in
      let? before := snd (poll_status 7%N m) in
      let? redirect := snd (submit_response url_of (fun _ => true) (w_http wallet) request response) in
      match fst (submit_response url_of (fun _ => true) (w_http wallet) request response) with
      | [EHttp sent] =>
          let? parsed := from_form (rq_body sent) in
          let '(m', _, verdict) := verify_response 7%N parsed (fun _ _ => OSuccess JNull) m in
          let? _ := verdict in
          let? after := snd (poll_status 7%N m') in
          Ok (before, (length (dq_credentials found), map cq_id (dq_credentials found), ro_type request, ro_mode request), redirect, rq_uri sent, after)
      | _ => Err "not one request"
      end
  | (_, Err e) => Err e
  end.

Example w3c_vc_did_client_direct_post :
  course = Ok (SentRequest, (1, ["did-key-id"], RtVpToken, DirectPost), None,
               "http://example.com/submission/00000000-0000-0000-0000-000000000007", Complete (OSuccess JNull)).
Proof. vm_compute. reflexivity. Qed.
