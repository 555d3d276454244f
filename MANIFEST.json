{
 "claims": [
  {
   "property": "C01",
   "status": "proved",
   "theorems": [
    "c01_insert",
    "c01_insert_failed",
    "c01_remove",
    "c01_sequence"
   ],
   "note": ""
  },
  {
   "property": "C02",
   "status": "proved",
   "theorems": [
    "c02_get",
    "c02_default",
    "c02_required"
   ],
   "note": ""
  },
  {
   "property": "C03",
   "status": "proved",
   "theorems": [
    "c03_text_params",
    "c03_enum_params",
    "c03_url_params",
    "c03_structured_params",
    "c03_map_params",
    "c03_insert_get"
   ],
   "note": ""
  },
  {
   "property": "C04",
   "status": "proved",
   "theorems": [
    "c04_prefix"
   ],
   "note": ""
  },
  {
   "property": "C05",
   "status": "proved",
   "theorems": [
    "c05_modes",
    "c05_jarm"
   ],
   "note": ""
  },
  {
   "property": "C06",
   "status": "proved",
   "theorems": [
    "c06_accept"
   ],
   "note": ""
  },
  {
   "property": "C07",
   "status": "proved",
   "theorems": [
    "c07_return_uri",
    "c07_no_influence",
    "c07_placeholder_refuted"
   ],
   "note": ""
  },
  {
   "property": "C08",
   "status": "proved",
   "theorems": [
    "c08_roundtrip"
   ],
   "note": ""
  },
  {
   "property": "C09",
   "status": "proved",
   "theorems": [
    "c09_accessors",
    "c09_views",
    "c09_mutation",
    "c09_stale_refuted"
   ],
   "note": ""
  },
  {
   "property": "C10",
   "status": "proved",
   "theorems": [
    "c10_classification"
   ],
   "note": ""
  },
  {
   "property": "C11",
   "status": "proved",
   "theorems": [
    "c11_matching",
    "c11_scheme_ignored"
   ],
   "note": ""
  },
  {
   "property": "C12",
   "status": "proved",
   "theorems": [
    "c12_roundtrip",
    "c12_confusion_refuted",
    "c12_texts",
    "c12_unserialisable"
   ],
   "note": ""
  },
  {
   "property": "C13",
   "status": "proved",
   "theorems": [
    "c13_traffic"
   ],
   "note": ""
  },
  {
   "property": "C14",
   "status": "proved",
   "theorems": [
    "c14_typ",
    "c14_bypass_refuted"
   ],
   "note": ""
  },
  {
   "property": "C15",
   "status": "proved",
   "theorems": [
    "c15_body"
   ],
   "note": ""
  },
  {
   "property": "C16",
   "status": "proved",
   "theorems": [
    "c16_client_ids",
    "c16_late_refuted",
    "c16_missing_inner_refuted"
   ],
   "note": ""
  },
  {
   "property": "C17",
   "status": "proved",
   "theorems": [
    "c17_direct"
   ],
   "note": ""
  },
  {
   "property": "C18",
   "status": "proved",
   "theorems": [
    "c18_gate",
    "c18_validate",
    "c18_preregistered_refuted"
   ],
   "note": ""
  },
  {
   "property": "C19",
   "status": "proved",
   "theorems": [
    "c19_one_hook",
    "c19_origin",
    "c19_validate"
   ],
   "note": ""
  },
  {
   "property": "C20",
   "status": "proved",
   "theorems": [
    "c20_default"
   ],
   "note": ""
  },
  {
   "property": "C21",
   "status": "proved",
   "theorems": [
    "c21_metadata"
   ],
   "note": ""
  },
  {
   "property": "C22",
   "status": "proved",
   "theorems": [
    "c22_explicit_mode",
    "c22_validate"
   ],
   "note": ""
  },
  {
   "property": "C23",
   "status": "proved",
   "theorems": [
    "c23_did"
   ],
   "note": ""
  },
  {
   "property": "C24",
   "status": "proved",
   "theorems": [
    "c24_none_bypass",
    "c24_no_bypass"
   ],
   "note": ""
  },
  {
   "property": "C25",
   "status": "proved",
   "theorems": [
    "c25_x509_hash",
    "c25_roots",
    "c25_p256"
   ],
   "note": ""
  },
  {
   "property": "C26",
   "status": "proved",
   "theorems": [
    "c26_x509_san"
   ],
   "note": ""
  },
  {
   "property": "C27",
   "status": "proved",
   "theorems": [
    "c27_did",
    "c27_x509_hash",
    "c27_x509_san"
   ],
   "note": ""
  },
  {
   "property": "C28",
   "status": "proved",
   "theorems": [
    "c28_fragments"
   ],
   "note": ""
  },
  {
   "property": "C29",
   "status": "proved",
   "theorems": [
    "c29_build",
    "c29_build_dc_api",
    "c29_fresh",
    "c29_succeeds",
    "c29_reuse_refuted"
   ],
   "note": ""
  },
  {
   "property": "C30",
   "status": "proved",
   "theorems": [
    "c30_failed_build"
   ],
   "note": ""
  },
  {
   "property": "C31",
   "status": "proved",
   "theorems": [
    "c31_response_uri",
    "c31_request_uri"
   ],
   "note": ""
  },
  {
   "property": "C32",
   "status": "proved",
   "theorems": [
    "c32_understood",
    "c32_clients"
   ],
   "note": ""
  },
  {
   "property": "C33",
   "status": "proved",
   "theorems": [
    "c33_prefix"
   ],
   "note": ""
  },
  {
   "property": "C34",
   "status": "proved",
   "theorems": [
    "c34_map",
    "c34_contended"
   ],
   "note": ""
  },
  {
   "property": "C35",
   "status": "proved",
   "theorems": [
    "c35_retrieve",
    "c35_idempotent"
   ],
   "note": ""
  },
  {
   "property": "C36",
   "status": "proved",
   "theorems": [
    "c36_isolated",
    "c36_projection"
   ],
   "note": ""
  },
  {
   "property": "C37",
   "status": "proved",
   "theorems": [
    "c37_immutable",
    "c37_retrieved"
   ],
   "note": ""
  },
  {
   "property": "C38",
   "status": "proved",
   "theorems": [
    "c38_race_refuted",
    "c38_only_race",
    "c38_by_value"
   ],
   "note": ""
  },
  {
   "property": "C39",
   "status": "proved",
   "theorems": [
    "c39_outcome",
    "c39_polled"
   ],
   "note": ""
  },
  {
   "property": "C40",
   "status": "proved",
   "theorems": [
    "c40_alone",
    "c40_verify_response",
    "c40_poll"
   ],
   "note": ""
  },
  {
   "property": "C41",
   "status": "proved",
   "theorems": [
    "c41_rank",
    "c41_laws"
   ],
   "note": ""
  },
  {
   "property": "C42",
   "status": "proved",
   "theorems": [
    "c42_roundtrip",
    "c42_order",
    "c42_jwt",
    "c42_deep_refuted"
   ],
   "note": ""
  },
  {
   "property": "C43",
   "status": "proved",
   "theorems": [
    "c43_no_injection",
    "c43_injective"
   ],
   "note": ""
  },
  {
   "property": "C44",
   "status": "proved",
   "theorems": [
    "c44_encrypted",
    "c44_unencoded"
   ],
   "note": ""
  },
  {
   "property": "C45",
   "status": "proved",
   "theorems": [
    "c45_traffic",
    "c45_silent",
    "c45_response_uri"
   ],
   "note": ""
  },
  {
   "property": "C46",
   "status": "proved",
   "theorems": [
    "c46_redirect",
    "c46_no_redirect"
   ],
   "note": ""
  },
  {
   "property": "C47",
   "status": "proved",
   "theorems": [
    "c47_selection"
   ],
   "note": ""
  },
  {
   "property": "C48",
   "status": "proved",
   "theorems": [
    "c48_build",
    "c48_calls"
   ],
   "note": ""
  },
  {
   "property": "C49",
   "status": "proved",
   "theorems": [
    "c49_contents",
    "c49_delivered"
   ],
   "note": ""
  },
  {
   "property": "C50",
   "status": "proved",
   "theorems": [
    "c50_unencryptable_refuted",
    "c50_enc_refuted",
    "c50_refused_refuted",
    "c50_remaining"
   ],
   "note": ""
  },
  {
   "property": "C51",
   "status": "proved",
   "theorems": [
    "c51_redirect",
    "c51_dc_api",
    "c51_serialize"
   ],
   "note": ""
  },
  {
   "property": "C52",
   "status": "proved",
   "theorems": [
    "c52_redirect",
    "c52_dc_api",
    "c52_flows"
   ],
   "note": ""
  },
  {
   "property": "C53",
   "status": "proved",
   "theorems": [
    "c53_handover",
    "c53_transcript",
    "c53_roundtrip",
    "c53_bytes",
    "c53_empty_refuted"
   ],
   "note": ""
  },
  {
   "property": "C54",
   "status": "proved",
   "theorems": [
    "c54_rfc7638",
    "c54_depends",
    "c54_injective",
    "c54_quotes_refuted"
   ],
   "note": ""
  },
  {
   "property": "C55",
   "status": "proved",
   "theorems": [
    "c55_which_key",
    "c55_differ_refuted",
    "c55_agree"
   ],
   "note": ""
  },
  {
   "property": "C56",
   "status": "proved",
   "theorems": [
    "c56_roundtrip",
    "c56_parsed"
   ],
   "note": ""
  },
  {
   "property": "C57",
   "status": "proved",
   "theorems": [
    "c57_credential_defaults",
    "c57_set_defaults",
    "c57_new",
    "c57_bare"
   ],
   "note": ""
  },
  {
   "property": "C58",
   "status": "proved",
   "theorems": [
    "c58_accessors"
   ],
   "note": ""
  },
  {
   "property": "C59",
   "status": "proved",
   "theorems": [
    "c59_nonempty",
    "c59_default_refuted"
   ],
   "note": ""
  },
  {
   "property": "C60",
   "status": "proved",
   "theorems": [
    "c60_roundtrip",
    "c60_exact",
    "c60_accept",
    "c60_new",
    "c60_static",
    "c60_stale_refuted"
   ],
   "note": ""
  },
  {
   "property": "C61",
   "status": "proved",
   "theorems": [
    "c61_signing",
    "c61_prefixes"
   ],
   "note": ""
  },
  {
   "property": "C62",
   "status": "proved",
   "theorems": [
    "c62_supports",
    "c62_order"
   ],
   "note": ""
  },
  {
   "property": "C63",
   "status": "proved",
   "theorems": [
    "c63_names",
    "c63_payloads",
    "c63_map_lossless",
    "c63_map_lossy_refuted",
    "c63_claim_format",
    "c63_designation",
    "c63_namesake_refuted",
    "c63_claim_format_lossy_refuted",
    "c63_add"
   ],
   "note": ""
  },
  {
   "property": "C64",
   "status": "proved",
   "theorems": [
    "c64_likely",
    "c64_nonce",
    "c64_uniform"
   ],
   "note": ""
  },
  {
   "property": "C65",
   "status": "proved",
   "theorems": [
    "c65_make_jwt",
    "c65_canonical",
    "c65_unique"
   ],
   "note": ""
  },
  {
   "property": "C66",
   "status": "proved",
   "theorems": [
    "c66_roundtrip",
    "c66_injective",
    "c66_parsed",
    "c66_last_wins"
   ],
   "note": ""
  },
  {
   "property": "C67",
   "status": "proved",
   "theorems": [
    "c67_sound",
    "c67_complete",
    "c67_claims_refuted",
    "c67_sets_refuted"
   ],
   "note": ""
  },
  {
   "property": "C68",
   "status": "proved",
   "theorems": [
    "c68_bound",
    "c68_success",
    "c68_unverified_refuted"
   ],
   "note": ""
  },
  {
   "property": "C69",
   "status": "proved",
   "theorems": [
    "c69_direct_text"
   ],
   "note": ""
  },
  {
   "property": "C70",
   "status": "proved",
   "theorems": [
    "c70_x509_hash",
    "c70_x509_san",
    "c70_did"
   ],
   "note": ""
  },
  {
   "property": "C71",
   "status": "proved",
   "theorems": [
    "c71_roundtrip",
    "c71_precedence"
   ],
   "note": ""
  },
  {
   "property": "C72",
   "status": "proved",
   "theorems": [
    "c72_key_binding"
   ],
   "note": ""
  },
  {
   "property": "C73",
   "status": "proved",
   "theorems": [
    "c73_encryption",
    "c73_unlisted_refuted"
   ],
   "note": ""
  },
  {
   "property": "C74",
   "status": "proved",
   "theorems": [
    "c74_contents",
    "c74_consent"
   ],
   "note": ""
  },
  {
   "property": "C75",
   "status": "proved",
   "theorems": [
    "c75_direct",
    "c75_no_request"
   ],
   "note": ""
  },
  {
   "property": "C76",
   "status": "proved",
   "theorems": [
    "c76_success",
    "c76_error",
    "c76_no_failure",
    "c76_unchecked_refuted"
   ],
   "note": ""
  },
  {
   "property": "C77",
   "status": "proved",
   "theorems": [
    "c77_initiate",
    "c77_failed",
    "c77_succeeds"
   ],
   "note": ""
  },
  {
   "property": "C78",
   "status": "proved",
   "theorems": [
    "c78_ids",
    "c78_status",
    "c78_request",
    "c78_response",
    "c78_refused",
    "c78_route",
    "c78_status_url_refuted",
    "c78_texts"
   ],
   "note": ""
  },
  {
   "property": "C79",
   "status": "proved",
   "theorems": [
    "c79_wallet",
    "c79_interop"
   ],
   "note": ""
  },
  {
   "property": "C80",
   "status": "proved",
   "theorems": [
    "c80_setup",
    "c80_succeeds",
    "c80_readable",
    "c80_unanswered"
   ],
   "note": ""
  },
  {
   "property": "C81",
   "status": "proved",
   "theorems": [
    "c81_accepts",
    "c81_query",
    "c81_covered",
    "c81_formats",
    "c81_ids",
    "c81_ids_refuted"
   ],
   "note": ""
  },
  {
   "property": "C82",
   "status": "proved",
   "theorems": [
    "c82_received"
   ],
   "note": ""
  },
  {
   "property": "C83",
   "status": "proved",
   "theorems": [
    "c83_did_made",
    "c83_did",
    "c83_x509_made",
    "c83_x509"
   ],
   "note": ""
  },
  {
   "property": "C84",
   "status": "proved",
   "theorems": [
    "c84_complete",
    "c84_settings",
    "c84_request",
    "c84_dropped"
   ],
   "note": ""
  },
  {
   "property": "C85",
   "status": "proved",
   "theorems": [
    "c85_validated",
    "c85_silent",
    "c85_effects"
   ],
   "note": ""
  },
  {
   "property": "C86",
   "status": "proved",
   "theorems": [
    "c86_validated",
    "c86_answered",
    "c86_did",
    "c86_x509"
   ],
   "note": ""
  },
  {
   "property": "C87",
   "status": "proved",
   "theorems": [
    "c87_query"
   ],
   "note": ""
  },
  {
   "property": "C88",
   "status": "proved",
   "theorems": [
    "c88_fresh",
    "c88_linear",
    "c88_answers"
   ],
   "note": ""
  },
  {
   "property": "C89",
   "status": "proved",
   "theorems": [
    "c89_ends",
    "c89_no_waiting",
    "c89_all_return"
   ],
   "note": ""
  },
  {
   "property": "C90",
   "status": "proved",
   "theorems": [
    "c90_cancelled"
   ],
   "note": ""
  },
  {
   "property": "C91",
   "status": "proved",
   "theorems": [
    "c91_sha256"
   ],
   "note": ""
  },
  {
   "property": "C92",
   "status": "proved",
   "theorems": [
    "c92_served",
    "c92_read",
    "c92_clients",
    "c92_enc_refuted",
    "c92_prefix_refuted"
   ],
   "note": ""
  },
  {
   "property": "C93",
   "status": "proved",
   "theorems": [
    "c93_reads",
    "c93_roundtrip",
    "c93_faithful"
   ],
   "note": ""
  },
  {
   "property": "C94",
   "status": "proved",
   "theorems": [
    "c94_linear",
    "c94_fresh",
    "c94_ends",
    "c94_all_answered",
    "c94_only_race",
    "c94_regress_refuted"
   ],
   "note": ""
  },
  {
   "property": "C95",
   "status": "proved",
   "theorems": [
    "c95_grammar",
    "c95_unambiguous",
    "c95_utf8",
    "c95_utf8_unique"
   ],
   "note": ""
  },
  {
   "property": "C96",
   "status": "proved",
   "theorems": [
    "c96_repair",
    "c96_written",
    "c96_form"
   ],
   "note": ""
  },
  {
   "property": "C97",
   "status": "proved",
   "theorems": [
    "c97_base64url",
    "c97_certificates"
   ],
   "note": ""
  },
  {
   "property": "C98",
   "status": "proved",
   "theorems": [
    "c98_text",
    "c98_enum",
    "c98_url",
    "c98_structured",
    "c98_maps",
    "c98_claim_format"
   ],
   "note": ""
  },
  {
   "property": "C99",
   "status": "proved",
   "theorems": [
    "c99_chain",
    "c99_static",
    "c99_types"
   ],
   "note": ""
  },
  {
   "property": "C100",
   "status": "proved",
   "theorems": [
    "c100_completed",
    "c100_truthful",
    "c100_answered",
    "c100_status",
    "c100_once",
    "c100_alone",
    "c100_possible",
    "c100_lost_refuted",
    "c100_unstored_refuted",
    "c100_stranger_refuted"
   ],
   "note": ""
  },
  {
   "property": "C101",
   "status": "proved",
   "theorems": [
    "c101_pair",
    "c101_stable",
    "c101_recovers",
    "c101_reads",
    "c101_name",
    "c101_separate",
    "c101_file",
    "c101_text",
    "c101_evict_refuted",
    "c101_mixed_refuted"
   ],
   "note": ""
  },
  {
   "property": "C102",
   "status": "proved",
   "theorems": [
    "c102_params",
    "c102_outcome",
    "c102_sent",
    "c102_echo",
    "c102_denied",
    "c102_effects",
    "c102_refused",
    "c102_head",
    "c102_timeout_refuted",
    "c102_pages"
   ],
   "note": ""
  },
  {
   "property": "C103",
   "status": "proved",
   "theorems": [
    "c103_private",
    "c103_jwks"
   ],
   "note": ""
  },
  {
   "property": "C104",
   "status": "proved",
   "theorems": [
    "c104_load",
    "c104_config",
    "c104_discloses",
    "c104_answers",
    "c104_consent",
    "c104_claims",
    "c104_reveals",
    "c104_minimal_refuted",
    "c104_endpoint_refuted"
   ],
   "note": ""
  },
  {
   "property": "C105",
   "status": "proved",
   "theorems": [
    "c105_routes",
    "c105_refused",
    "c105_behaves",
    "c105_success",
    "c105_business",
    "c105_links",
    "c105_head_refuted",
    "c105_timeout_refuted"
   ],
   "note": ""
  },
  {
   "property": "C106",
   "status": "proved",
   "theorems": [
    "c106_signer",
    "c106_did_made",
    "c106_annotated_refuted",
    "c106_did",
    "c106_x509",
    "c106_mismatch"
   ],
   "note": ""
  },
  {
   "property": "C107",
   "status": "proved",
   "theorems": [
    "c107_hostless",
    "c107_printed",
    "c107_accepted",
    "c107_mode",
    "c107_mode_refuted",
    "c107_endpoints",
    "c107_endpoints_refuted"
   ],
   "note": ""
  },
  {
   "property": "C108",
   "status": "proved",
   "theorems": [
    "c108_cred",
    "c108_auths",
    "c108_set",
    "c108_claim",
    "c108_query",
    "c108_sent",
    "c108_claim_sets_refuted",
    "c108_token"
   ],
   "note": ""
  },
  {
   "property": "C109",
   "status": "proved",
   "theorems": [
    "c109_routes",
    "c109_refused",
    "c109_behaves",
    "c109_completed",
    "c109_truthful",
    "c109_answered",
    "c109_links",
    "c109_served",
    "c109_head_refuted"
   ],
   "note": ""
  },
  {
   "property": "C110",
   "status": "proved",
   "theorems": [
    "c110_holder",
    "c110_bound",
    "c110_credential_refuted"
   ],
   "note": ""
  },
  {
   "property": "C111",
   "status": "proved",
   "theorems": [
    "c111_execute",
    "c111_body",
    "c111_submit",
    "c111_validate",
    "c111_elsewhere_refuted",
    "c111_example"
   ],
   "note": ""
  },
  {
   "property": "C112",
   "status": "proved",
   "theorems": [
    "c112_sessions",
    "c112_metadata",
    "c112_interop",
    "c112_reads",
    "c112_normal",
    "c112_reread"
   ],
   "note": ""
  },
  {
   "property": "C113",
   "status": "proved",
   "theorems": [
    "c113_sessions",
    "c113_traffic",
    "c113_interop",
    "c113_takes"
   ],
   "note": ""
  },
  {
   "property": "C114",
   "status": "proved",
   "theorems": [
    "c114_stays",
    "c114_client",
    "c114_submit",
    "c114_validate",
    "c114_sibling",
    "c114_resolves"
   ],
   "note": ""
  },
  {
   "property": "C115",
   "status": "proved",
   "theorems": [
    "c115_domain",
    "c115_hosts",
    "c115_interop",
    "c115_urls",
    "c115_start",
    "c115_takes",
    "c115_ipv6",
    "c115_ipv6_same"
   ],
   "note": ""
  },
  {
   "property": "C116",
   "status": "proved",
   "theorems": [
    "c116_protocol",
    "c116_any_store",
    "c116_trusted"
   ],
   "note": ""
  },
  {
   "property": "C117",
   "status": "proved",
   "theorems": [
    "c117_x509_hash",
    "c117_did",
    "c117_answer",
    "c117_secret",
    "c117_san_refuted"
   ],
   "note": ""
  },
  {
   "property": "C118",
   "status": "proved",
   "theorems": [
    "c118_lines",
    "c118_says",
    "c118_plain",
    "c118_verdict",
    "c118_control_refuted"
   ],
   "note": ""
  },
  {
   "property": "C119",
   "status": "proved",
   "theorems": [
    "c119_objects",
    "c119_text",
    "c119_request",
    "c119_metadata",
    "c119_gate",
    "c119_query",
    "c119_matcher",
    "c119_encrypted",
    "c119_token",
    "c119_designation_refuted"
   ],
   "note": ""
  },
  {
   "property": "C120",
   "status": "proved",
   "theorems": [
    "c120_text",
    "c120_integers",
    "c120_request",
    "c120_metadata",
    "c120_gate",
    "c120_query",
    "c120_matcher",
    "c120_token",
    "c120_rewritten_refuted"
   ],
   "note": ""
  },
  {
   "property": "C121",
   "status": "proved",
   "theorems": [
    "c121_request",
    "c121_gate",
    "c121_answer",
    "c121_did",
    "c121_x509",
    "c121_validate",
    "c121_wallet",
    "c121_expired_refuted"
   ],
   "note": ""
  },
  {
   "property": "C122",
   "status": "proved",
   "theorems": [
    "c122_sequential",
    "c122_answers",
    "c122_arranged",
    "c122_in_time",
    "c122_late_refuted"
   ],
   "note": ""
  },
  {
   "property": "C123",
   "status": "proved",
   "theorems": [
    "c123_sequential",
    "c123_answers",
    "c123_arranged",
    "c123_in_time",
    "c123_late_refuted"
   ],
   "note": ""
  },
  {
   "property": "C124",
   "status": "proved",
   "theorems": [
    "c124_validates",
    "c124_did",
    "c124_x509",
    "c124_builds",
    "c124_added",
    "c124_credentials",
    "c124_first_refuted"
   ],
   "note": ""
  },
  {
   "property": "C125",
   "status": "proved",
   "theorems": [
    "c125_sequential",
    "c125_lasting",
    "c125_answers",
    "c125_once",
    "c125_crash"
   ],
   "note": ""
  },
  {
   "property": "C126",
   "status": "proved",
   "theorems": [
    "c126_shape",
    "c126_likely",
    "c126_guesses",
    "c126_collisions",
    "c126_build",
    "c126_replaced",
    "c126_apart"
   ],
   "note": ""
  },
  {
   "property": "C127",
   "status": "proved",
   "theorems": [
    "c127_apart",
    "c127_stranger",
    "c127_server",
    "c127_power"
   ],
   "note": ""
  },
  {
   "property": "C128",
   "status": "proved",
   "theorems": [
    "c128_url",
    "c128_length",
    "c128_by_value",
    "c128_initiate"
   ],
   "note": ""
  },
  {
   "property": "C129",
   "status": "proved",
   "theorems": [
    "c129_repeat",
    "c129_converge",
    "c129_concurrent",
    "c129_two_refuted"
   ],
   "note": ""
  },
  {
   "property": "C130",
   "status": "proved",
   "theorems": [
    "c130_undisturbed",
    "c130_random",
    "c130_presentation"
   ],
   "note": ""
  },
  {
   "property": "C131",
   "status": "proved",
   "theorems": [
    "c131_wallet",
    "c131_only",
    "c131_example",
    "c131_builder",
    "c131_followed"
   ],
   "note": ""
  },
  {
   "property": "C132",
   "status": "proved",
   "theorems": [
    "c132_example",
    "c132_library",
    "c132_alike",
    "c132_plain_refuted"
   ],
   "note": ""
  },
  {
   "property": "C133",
   "status": "proved",
   "theorems": [
    "c133_library",
    "c133_example",
    "c133_unbounded"
   ],
   "note": ""
  },
  {
   "property": "C134",
   "status": "proved",
   "theorems": [
    "c134_more",
    "c134_wallet",
    "c134_superset",
    "c134_fewer",
    "c134_restrict_refuted",
    "c134_first"
   ],
   "note": ""
  },
  {
   "property": "C135",
   "status": "proved",
   "theorems": [
    "c135_url",
    "c135_wallet",
    "c135_response",
    "c135_endpoint",
    "c135_clash",
    "c135_own"
   ],
   "note": ""
  },
  {
   "property": "C136",
   "status": "proved",
   "theorems": [
    "c136_json_read",
    "c136_json_written",
    "c136_form_read",
    "c136_form_written",
    "c136_request",
    "c136_response",
    "c136_answer",
    "c136_copies",
    "c136_amplify_refuted"
   ],
   "note": ""
  },
  {
   "property": "C137",
   "status": "proved",
   "theorems": [
    "c137_transparent",
    "c137_presentations",
    "c137_decrypted_refuted",
    "c137_level_refuted",
    "c137_threshold",
    "c137_audit",
    "c137_created",
    "c137_unnamed_refuted"
   ],
   "note": ""
  },
  {
   "property": "C138",
   "status": "proved",
   "theorems": [
    "c138_credentials",
    "c138_ordinary",
    "c138_parameters",
    "c138_failures",
    "c138_sent",
    "c138_echo_refuted"
   ],
   "note": ""
  },
  {
   "property": "C139",
   "status": "proved",
   "theorems": [
    "c139_sequential",
    "c139_answers",
    "c139_arranged",
    "c139_in_time",
    "c139_late_refuted"
   ],
   "note": ""
  },
  {
   "property": "C140",
   "status": "proved",
   "theorems": [
    "c140_choice",
    "c140_presentations",
    "c140_selected",
    "c140_metadata",
    "c140_lenient",
    "c140_forged_refuted",
    "c140_names",
    "c140_hash",
    "c140_client"
   ],
   "note": ""
  },
  {
   "property": "C141",
   "status": "proved",
   "theorems": [
    "c141_accepted",
    "c141_few",
    "c141_refused",
    "c141_fetched",
    "c141_own",
    "c141_holder",
    "c141_bit",
    "c141_hash"
   ],
   "note": ""
  }
 ]
}