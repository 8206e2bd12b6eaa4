{
 "claims": [
  {
   "property": "C01",
   "status": "proved",
   "theorems": [
    "C01_prefix_exact",
    "C01_prefix_defined",
    "C01_prefix_rejects",
    "C01_prefix_injective"
   ],
   "note": ""
  },
  {
   "property": "C02",
   "status": "proved",
   "theorems": [
    "C02_aead_decrypt_sound"
   ],
   "note": ""
  },
  {
   "property": "C03",
   "status": "proved",
   "theorems": [
    "C03_aead_candidate_order",
    "C03_primitive_available",
    "C03_primitive_class"
   ],
   "note": ""
  },
  {
   "property": "C04",
   "status": "proved",
   "theorems": [
    "C04_aead_round_trip"
   ],
   "note": ""
  },
  {
   "property": "C05",
   "status": "proved",
   "theorems": [
    "C05_aead_rotation",
    "C05_aead_rotation_any_order"
   ],
   "note": ""
  },
  {
   "property": "C06",
   "status": "proved",
   "theorems": [
    "C06_only_enabled_keys_matter",
    "C06_aead_rejects_what_enabled_keys_reject"
   ],
   "note": ""
  },
  {
   "property": "C07",
   "status": "proved",
   "theorems": [
    "C07_daead_law",
    "C07_daead_round_trip",
    "C07_daead_rotation"
   ],
   "note": ""
  },
  {
   "property": "C08",
   "status": "proved",
   "theorems": [
    "C08_mac_law",
    "C08_mac_verify_iff",
    "C08_mac_round_trip",
    "C08_mac_rotation"
   ],
   "note": ""
  },
  {
   "property": "C09",
   "status": "proved",
   "theorems": [
    "C09_sign_law",
    "C09_verify_law",
    "C09_verify_iff",
    "C09_signature_round_trip",
    "C09_verify_rotation"
   ],
   "note": ""
  },
  {
   "property": "C10",
   "status": "proved",
   "theorems": [
    "C10_hybrid_encrypt_law",
    "C10_hybrid_decrypt_law",
    "C10_hybrid_round_trip",
    "C10_hybrid_rotation"
   ],
   "note": ""
  },
  {
   "property": "C11",
   "status": "proved",
   "theorems": [
    "C11_prf_set_law",
    "C11_prf_set_needs_raw"
   ],
   "note": ""
  },
  {
   "property": "C12",
   "status": "proved",
   "theorems": [
    "C12_primitive_only_tink_errors",
    "C12_aead_only_tink_errors",
    "C12_daead_only_tink_errors",
    "C12_mac_only_tink_errors",
    "C12_sign_only_tink_errors",
    "C12_verify_only_tink_errors",
    "C12_hybrid_encrypt_only_tink_errors",
    "C12_hybrid_decrypt_only_tink_errors"
   ],
   "note": ""
  },
  {
   "property": "C13",
   "status": "proved",
   "theorems": [
    "C13_create_iff_valid",
    "C13_create_error",
    "C13_handles_are_valid"
   ],
   "note": ""
  },
  {
   "property": "C14",
   "status": "proved",
   "theorems": [
    "C14_generate_new",
    "C14_generate_new_terminates",
    "C14_generate_new_error"
   ],
   "note": ""
  },
  {
   "property": "C15",
   "status": "proved",
   "theorems": [
    "C15_encrypted_json_round_trip",
    "C15_encrypted_json_format_round_trip",
    "C15_encrypted_binary_round_trip"
   ],
   "note": ""
  },
  {
   "property": "C16",
   "status": "proved",
   "theorems": [
    "C16_write_encrypted_json",
    "C16_write_encrypted",
    "C16_read_encrypted",
    "C16_read_encrypted_error"
   ],
   "note": ""
  },
  {
   "property": "C17",
   "status": "proved",
   "theorems": [
    "C17_json_serialize_without_secret",
    "C17_json_parse_without_secret",
    "C17_json_no_secret_round_trip",
    "C17_write_no_secret",
    "C17_read_no_secret",
    "C17_read_no_secret_error",
    "C17_serialize_without_secret",
    "C17_parse_without_secret",
    "C17_no_secret_round_trip"
   ],
   "note": ""
  },
  {
   "property": "C18",
   "status": "proved",
   "theorems": [
    "C18_json_encrypted_output_no_key_material",
    "C18_keyset_info_exact",
    "C18_keyset_info_no_key_material",
    "C18_encrypted_output_no_key_material"
   ],
   "note": ""
  },
  {
   "property": "C19",
   "status": "proved",
   "theorems": [
    "C19_json_token_required",
    "C19_json_token_accepted",
    "C19_token_required",
    "C19_refusal_independent_of_keyset",
    "C19_token_accepted"
   ],
   "note": ""
  },
  {
   "property": "C20",
   "status": "proved",
   "theorems": [
    "C20_public_handle",
    "C20_public_handle_error",
    "C20_no_public_counterpart"
   ],
   "note": ""
  },
  {
   "property": "C21",
   "status": "proved",
   "theorems": [
    "C21_keyset_round_trip",
    "C21_encrypted_keyset_round_trip",
    "C21_key_data_round_trip",
    "C21_key_template_round_trip",
    "C21_parsed_keysets_are_representable",
    "C21_parsed_encrypted_keysets_are_representable",
    "C21_serialize_injective"
   ],
   "note": ""
  },
  {
   "property": "C22",
   "status": "proved",
   "theorems": [
    "C22_json_reader_total",
    "C22_json_parsers_total",
    "C22_json_reader_total_older_protobuf",
    "C22_json_older_protobuf_refuted",
    "C22_binary_reader_total",
    "C22_binary_parsers_total"
   ],
   "note": "JSON: with a protobuf runtime that wraps every failure in ParseError; refuted for older runtimes (C22_json_older_protobuf_refuted)"
  },
  {
   "property": "C23",
   "status": "proved",
   "theorems": [
    "C23_manager_permanent",
    "C23_no_new_keys_forever",
    "C23_manager_and_flag_monotone",
    "C23_registered_managers_sound"
   ],
   "note": ""
  },
  {
   "property": "C24",
   "status": "proved",
   "theorems": [
    "C24_register_key_manager",
    "C24_register_wrapper",
    "C24_key_manager",
    "C24_new_key_data",
    "C24_primitive",
    "C24_public_key_data",
    "C24_wrap",
    "C24_input_primitive_class"
   ],
   "note": ""
  },
  {
   "property": "C25",
   "status": "proved",
   "theorems": [
    "C25_primitive_set_lookup",
    "C25_add_primitive"
   ],
   "note": ""
  },
  {
   "property": "C26",
   "status": "proved",
   "theorems": [
    "C26_lookup",
    "C26_kms_aead_key",
    "C26_kms_envelope_key"
   ],
   "note": ""
  },
  {
   "property": "C27",
   "status": "proved",
   "theorems": [
    "C27_format",
    "C27_layout_unambiguous",
    "C27_round_trip"
   ],
   "note": ""
  },
  {
   "property": "C28",
   "status": "proved",
   "theorems": [
    "C28_decrypt_exact",
    "C28_too_short",
    "C28_only_tink_error"
   ],
   "note": ""
  },
  {
   "property": "C29",
   "status": "proved",
   "theorems": [
    "C29_supported_dek_types",
    "C29_template_dek_types",
    "C29_managers_check_type"
   ],
   "note": ""
  },
  {
   "property": "C30",
   "status": "proved",
   "theorems": [
    "C30_aws_construction",
    "C30_aws_serves",
    "C30_aws_session_serves",
    "C30_gcp_serves",
    "C30_vault_endpoint",
    "C30_vault_endpoint_injective",
    "C30_vault_aead",
    "C30_vault_round_trip",
    "C30_gcp_name_format_refuted",
    "C30_vault_only_tink_error_refuted"
   ],
   "note": ""
  },
  {
   "property": "C31",
   "status": "proved",
   "theorems": [
    "C31_aws_context",
    "C31_aws_context_injective",
    "C31_aws_binds_associated_data"
   ],
   "note": ""
  },
  {
   "property": "C32",
   "status": "proved",
   "theorems": [
    "C32_encode_is_base64url",
    "C32_decode_exact",
    "C32_round_trip",
    "C32_rejects",
    "C32_total",
    "C32_standard_round_trip",
    "C32_injective_refuted"
   ],
   "note": ""
  },
  {
   "property": "C33",
   "status": "proved",
   "theorems": [
    "C33_round_trip",
    "C33_writing_total"
   ],
   "note": ""
  },
  {
   "property": "C34",
   "status": "proved",
   "theorems": [
    "C34_accepts_exactly",
    "C34_errors",
    "C34_one_reading",
    "C34_duplicates_rejected"
   ],
   "note": ""
  },
  {
   "property": "C35",
   "status": "proved",
   "theorems": [
    "C35_split",
    "C35_split_total",
    "C35_unambiguous"
   ],
   "note": ""
  },
  {
   "property": "C36",
   "status": "proved",
   "theorems": [
    "C36_encode",
    "C36_kid_conflict",
    "C36_round_trip_one_key",
    "C36_round_trip_mac",
    "C36_round_trip_signature",
    "C36_token_mac",
    "C36_token_signature"
   ],
   "note": ""
  },
  {
   "property": "C37",
   "status": "proved",
   "theorems": [
    "C37_sound",
    "C37_complete",
    "C37_mac_keyset",
    "C37_signature_keyset",
    "C37_hmac_manager",
    "C37_sign_manager",
    "C37_verify_manager",
    "C37_registries",
    "C37_register_functions",
    "C37_algorithm_name_refuted"
   ],
   "note": ""
  },
  {
   "property": "C38",
   "status": "proved",
   "theorems": [
    "C38_sound",
    "C38_complete",
    "C38_decides",
    "C38_error"
   ],
   "note": ""
  },
  {
   "property": "C39",
   "status": "proved",
   "theorems": [
    "C39_accepted_iff",
    "C39_error",
    "C39_contradictory_refuted"
   ],
   "note": ""
  },
  {
   "property": "C40",
   "status": "proved",
   "theorems": [
    "C40_init",
    "C40_init_error",
    "C40_new",
    "C40_new_accepts",
    "C40_new_error",
    "C40_whole_seconds",
    "C40_accessors",
    "C40_audiences",
    "C40_custom_claims",
    "C40_empty_issuer_refuted",
    "C40_nan_refuted",
    "C40_bool_timestamp_refuted",
    "C40_last_second_refuted"
   ],
   "note": ""
  },
  {
   "property": "C41",
   "status": "proved",
   "theorems": [
    "C41_mac",
    "C41_sign",
    "C41_verify",
    "C41_every_key_once",
    "C41_keyset_order",
    "C41_keys_agree",
    "C41_prefix_types",
    "C41_keyset_order_refuted"
   ],
   "note": ""
  },
  {
   "property": "C42",
   "status": "proved",
   "theorems": [
    "C42_kid",
    "C42_kid_unique",
    "C42_kid_injective",
    "C42_kid_errors",
    "C42_one_key"
   ],
   "note": ""
  },
  {
   "property": "C43",
   "status": "proved",
   "theorems": [
    "C43_mac_unauthenticated",
    "C43_signature_unauthenticated",
    "C43_one_key",
    "C43_errors",
    "C43_unknown_algorithm",
    "C43_authenticated_refuted",
    "C43_unknown_algorithm_refuted"
   ],
   "note": ""
  },
  {
   "property": "C44",
   "status": "proved",
   "theorems": [
    "C44_export_exact",
    "C44_export_errors",
    "C44_round_trip",
    "C44_round_trip_no_enabled_key",
    "C44_jwk_determines_key",
    "C44_export_always_tink_error_refuted",
    "C44_round_trip_keeps_version_refuted"
   ],
   "note": ""
  },
  {
   "property": "C45",
   "status": "proved",
   "theorems": [
    "C45_import_sound",
    "C45_import_complete",
    "C45_import_rejects",
    "C45_import_errors",
    "C45_not_a_set",
    "C45_always_tink_error_refuted"
   ],
   "note": ""
  },
  {
   "property": "C46",
   "status": "proved",
   "theorems": [
    "C46_rewindable_replay",
    "C46_rewind_allowed",
    "C46_failed_readall_refuted"
   ],
   "note": ""
  },
  {
   "property": "C47",
   "status": "proved",
   "theorems": [
    "C47_streaming_handle_spec",
    "C47_one_key",
    "C47_plaintext",
    "C47_refuses",
    "C47_close",
    "C47_transient_error_refuted",
    "C47_creation_failure_refuted"
   ],
   "note": ""
  },
  {
   "property": "C48",
   "status": "proved",
   "theorems": [
    "C48_input_stream",
    "C48_consumed",
    "C48_eof_text_refuted"
   ],
   "note": ""
  },
  {
   "property": "C49",
   "status": "proved",
   "theorems": [
    "C49_output_stream",
    "C49_written_bytes_reach_file",
    "C49_destination_prefix",
    "C49_encrypting_stream",
    "C49_write_takes_all",
    "C49_closed"
   ],
   "note": ""
  },
  {
   "property": "C50",
   "status": "proved",
   "theorems": [
    "C50_failed_close_prefix",
    "C50_retry_refuted"
   ],
   "note": ""
  },
  {
   "property": "C51",
   "status": "proved",
   "theorems": [
    "C51_read",
    "C51_closed",
    "C51_read_zero",
    "C51_decrypts_to",
    "C51_refuses"
   ],
   "note": ""
  },
  {
   "property": "C52",
   "status": "proved",
   "theorems": [
    "C52_call_effects",
    "C52_calls_terminate",
    "C52_ids_unique",
    "C52_key_persists",
    "C52_deleted_key_is_gone",
    "C52_keyset_handle",
    "C52_from_keyset_handle",
    "C52_from_keyset",
    "C52_histories_stay_well_formed",
    "C52_failed_add",
    "C52_public_keyset",
    "C52_template_variants",
    "C52_ids_unique_in_all_histories_refuted"
   ],
   "note": ""
  },
  {
   "property": "C53",
   "status": "proved",
   "theorems": [
    "C53_minimal_and_exact",
    "C53_negative",
    "C53_injective"
   ],
   "note": ""
  },
  {
   "property": "C54",
   "status": "proved",
   "theorems": [
    "C54_member_strings",
    "C54_every_string_refuted"
   ],
   "note": ""
  },
  {
   "property": "C55",
   "status": "proved",
   "theorems": [
    "C55_writer_output",
    "C55_writer_output_encrypted",
    "C55_reader_accepts_any_layout",
    "C55_reader_accepts_any_layout_encrypted",
    "C55_json_round_trip",
    "C55_json_encrypted_round_trip",
    "C55_read_keysets_are_representable",
    "C55_read_write_read",
    "C55_parse_exactly"
   ],
   "note": ""
  },
  {
   "property": "C56",
   "status": "proved",
   "theorems": [
    "C56_template_delivers",
    "C56_created_iff_representable",
    "C56_errors",
    "C56_templates_determine_requests",
    "C56_predefined_templates",
    "C56_message_round_trip"
   ],
   "note": ""
  },
  {
   "property": "C57",
   "status": "proved",
   "theorems": [
    "C57_register_complete",
    "C57_primitive_is_the_cc_primitive",
    "C57_new_key_is_the_cc_key",
    "C57_public_key_is_the_cc_public_key",
    "C57_jwt_managers",
    "C57_templates_are_served",
    "C57_handle_only_tink_errors",
    "C57_primitives_only_tink_errors",
    "C57_aead_round_trip",
    "C57_aead_over_cc",
    "C57_daead_over_cc",
    "C57_hybrid_encrypt_over_cc",
    "C57_hybrid_decrypt_over_cc",
    "C57_mac_over_cc",
    "C57_sign_over_cc",
    "C57_verify_over_cc",
    "C57_failed_configuration",
    "C57_prf_output_length_refuted",
    "C57_kms_key_decode_error_refuted"
   ],
   "note": ""
  },
  {
   "property": "C58",
   "status": "proved",
   "theorems": [
    "C58_streaming_round_trip"
   ],
   "note": ""
  },
  {
   "property": "C59",
   "status": "proved",
   "theorems": [
    "C59_reader_strict"
   ],
   "note": ""
  },
  {
   "property": "C60",
   "status": "proved",
   "theorems": [
    "C60_encrypted_binary_file",
    "C60_cleartext_binary_file",
    "C60_json_file",
    "C60_encrypted_json_file",
    "C60_binary_written_twice",
    "C60_encrypted_binary_written_twice",
    "C60_json_written_twice",
    "C60_memory_stream",
    "C60_cleartext_binary_refuted"
   ],
   "note": ""
  },
  {
   "property": "C61",
   "status": "proved",
   "theorems": [
    "C61_any_schedule",
    "C61_concurrent_setup",
    "C61_threads_finish",
    "C61_single_thread",
    "C61_conflict_refused_refuted",
    "C61_new_keys_stay_forbidden_refuted",
    "C61_wrapper_conflict_refused_refuted"
   ],
   "note": ""
  },
  {
   "property": "C62",
   "status": "proved",
   "theorems": [
    "C62_tokens_never_change",
    "C62_tokens_readable",
    "C62_new_token",
    "C62_verified_token",
    "C62_audiences",
    "C62_custom_claim",
    "C62_calls_keep_objects",
    "C62_handles_never_change",
    "C62_handles_have_keysets",
    "C62_given_keyset_shared",
    "C62_own_writer_shared",
    "C62_audience_object_unchanged_refuted"
   ],
   "note": ""
  },
  {
   "property": "C63",
   "status": "proved",
   "theorems": [
    "C63_all_or_nothing",
    "C63_verifying_only_reads",
    "C63_jwt_verifying_only_reads",
    "C63_may_empty",
    "C63_generating",
    "C63_gcs_bad_path",
    "C63_gcs",
    "C63_hybrid_all_or_nothing_refuted",
    "C63_generate_keeps_keyset_refuted",
    "C63_gcs_all_or_nothing_refuted"
   ],
   "note": ""
  },
  {
   "property": "C64",
   "status": "proved",
   "theorems": [
    "C64_aead",
    "C64_daead",
    "C64_cleartext_keyset",
    "C64_encrypted_keyset",
    "C64_hybrid_encrypt",
    "C64_hybrid_decrypt",
    "C64_aead_round_trip",
    "C64_daead_round_trip",
    "C64_cleartext_round_trip",
    "C64_encrypted_round_trip",
    "C64_hybrid_round_trip",
    "C64_envelope_round_trip",
    "C64_blob_path",
    "C64_gcs_round_trip",
    "C64_keyset_file",
    "C64_cleartext_generate",
    "C64_encrypted_generate",
    "C64_cleartext_pipeline",
    "C64_encrypted_pipeline"
   ],
   "note": ""
  },
  {
   "property": "C65",
   "status": "proved",
   "theorems": [
    "C65_tag_text",
    "C65_mac_compute",
    "C65_mac_verify",
    "C65_signature_sign",
    "C65_signature_verify",
    "C65_mac_round_trip",
    "C65_signature_round_trip"
   ],
   "note": ""
  },
  {
   "property": "C66",
   "status": "proved",
   "theorems": [
    "C66_accepts_exactly",
    "C66_keeps",
    "C66_adds_only_no_kid",
    "C66_publish",
    "C66_adds_nothing_refuted",
    "C66_two_kids_refuted"
   ],
   "note": ""
  },
  {
   "property": "C67",
   "status": "proved",
   "theorems": [
    "C67_sign",
    "C67_jwk",
    "C67_jwk_published",
    "C67_verify",
    "C67_verify_ends",
    "C67_pipeline"
   ],
   "note": ""
  },
  {
   "property": "C68",
   "status": "proved",
   "theorems": [
    "C68_close",
    "C68_calls",
    "C68_closed"
   ],
   "note": ""
  },
  {
   "property": "C69",
   "status": "proved",
   "theorems": [
    "C69_reads",
    "C69_no_key",
    "C69_round_trip"
   ],
   "note": ""
  },
  {
   "property": "C70",
   "status": "proved",
   "theorems": [
    "C70_encrypt",
    "C70_decrypt",
    "C70_no_key",
    "C70_failed_encryption_is_incomplete_refuted",
    "C70_raw_output_complete_refuted"
   ],
   "note": ""
  },
  {
   "property": "C71",
   "status": "proved",
   "theorems": [
    "C71_effects",
    "C71_encrypt",
    "C71_encrypt_no_primary",
    "C71_decrypt",
    "C71_decrypt_damaged",
    "C71_decrypt_no_key",
    "C71_round_trip",
    "C71_encrypt_in_place",
    "C71_decrypt_in_place"
   ],
   "note": ""
  },
  {
   "property": "C72",
   "status": "proved",
   "theorems": [
    "C72_encrypts",
    "C72_ciphertext"
   ],
   "note": ""
  },
  {
   "property": "C73",
   "status": "proved",
   "theorems": [
    "C73_decrypts",
    "C73_round_trip"
   ],
   "note": ""
  },
  {
   "property": "C74",
   "status": "proved",
   "theorems": [
    "C74_tampered",
    "C74_cut_off",
    "C74_unknown_header",
    "C74_ignores_trailing_bytes",
    "C74_altered_is_detected_refuted"
   ],
   "note": ""
  },
  {
   "property": "C75",
   "status": "proved",
   "theorems": [
    "C75_primitive",
    "C75_one_meaning",
    "C75_formats",
    "C75_new_key",
    "C75_templates",
    "C75_new_handle",
    "C75_new_key_works",
    "C75_new_key_works_refuted"
   ],
   "note": ""
  },
  {
   "property": "C76",
   "status": "proved",
   "theorems": [
    "C76_primitive",
    "C76_writes",
    "C76_reads",
    "C76_tampered",
    "C76_no_key",
    "C76_new_handle_round_trip",
    "C76_program_encrypts",
    "C76_program_decrypts",
    "C76_program_round_trip",
    "C76_program_tampered",
    "C76_program_cut_off",
    "C76_program_no_key"
   ],
   "note": ""
  },
  {
   "property": "C77",
   "status": "proved",
   "theorems": [
    "C77_kms_aead",
    "C77_write",
    "C77_load",
    "C77_document_loads",
    "C77_stored_keyset_loads",
    "C77_cleartext",
    "C77_create",
    "C77_use",
    "C77_round_trip",
    "C77_pipeline"
   ],
   "note": ""
  },
  {
   "property": "C78",
   "status": "proved",
   "theorems": [
    "C78_aead",
    "C78_deterministic_aead",
    "C78_hybrid",
    "C78_mac",
    "C78_signature",
    "C78_register_fails"
   ],
   "note": ""
  },
  {
   "property": "C79",
   "status": "proved",
   "theorems": [
    "C79_client",
    "C79_register",
    "C79_get_aead",
    "C79_errors",
    "C79_keyset",
    "C79_round_trip",
    "C79_as_kms",
    "C79_bound_client_refuses_refuted",
    "C79_one_uri_per_key_refuted",
    "C79_only_tink_error_refuted"
   ],
   "note": ""
  },
  {
   "property": "C80",
   "status": "proved",
   "theorems": [
    "C80_mac",
    "C80_signature",
    "C80_decrypt",
    "C80_round_trip",
    "C80_same",
    "C80_prf",
    "C80_prf_set",
    "C80_testdata_path",
    "C80_value_after_close",
    "C80_written_after_close",
    "C80_slow_reads",
    "C80_slow_data",
    "C80_slow_end",
    "C80_slow_seek",
    "C80_slow_raw",
    "C80_only_tink_error_refuted",
    "C80_round_trip_refuted",
    "C80_altered_is_detected_refuted",
    "C80_prf_depends_on_name_refuted",
    "C80_negative_length_refuted",
    "C80_raw_at_most_size_refuted"
   ],
   "note": ""
  },
  {
   "property": "C81",
   "status": "proved",
   "theorems": [
    "C81_made",
    "C81_encrypts",
    "C81_decrypts",
    "C81_round_trip",
    "C81_unambiguous",
    "C81_too_long",
    "C81_all_sizes_refuted"
   ],
   "note": ""
  },
  {
   "property": "C82",
   "status": "proved",
   "theorems": [
    "C82_made",
    "C82_encrypts",
    "C82_decrypts",
    "C82_round_trip"
   ],
   "note": ""
  },
  {
   "property": "C83",
   "status": "proved",
   "theorems": [
    "C83_made",
    "C83_encrypts",
    "C83_decrypts",
    "C83_round_trip",
    "C83_unambiguous",
    "C83_ctr_hmac_made",
    "C83_ctr_hmac_encrypts",
    "C83_ctr_hmac_decrypts",
    "C83_ctr_hmac_round_trip",
    "C83_ctr_hmac_unambiguous",
    "C83_authenticated_injective",
    "C83_encrypt_then_mac_decrypts",
    "C83_all_sizes_refuted"
   ],
   "note": ""
  },
  {
   "property": "C84",
   "status": "proved",
   "theorems": [
    "C84_hmac_made",
    "C84_hmac_computes",
    "C84_cmac_made",
    "C84_cmac_computes",
    "C84_hmac_prf_output",
    "C84_cmac_prf_output",
    "C84_hkdf_prf_made",
    "C84_hkdf_prf_output",
    "C84_hkdf_prf_wraps",
    "C84_length_refuted"
   ],
   "note": ""
  },
  {
   "property": "C85",
   "status": "proved",
   "theorems": [
    "C85_aead_primitive",
    "C85_daead_primitive",
    "C85_mac_primitive",
    "C85_prf_primitive",
    "C85_usable_keys_work",
    "C85_one_meaning",
    "C85_new_aead_key",
    "C85_new_daead_key",
    "C85_new_mac_key",
    "C85_new_prf_key",
    "C85_formats_accepted",
    "C85_templates",
    "C85_new_keys_work",
    "C85_hkdf_sizes_refuted"
   ],
   "note": ""
  },
  {
   "property": "C86",
   "status": "proved",
   "theorems": [
    "C86_set_up",
    "C86_aead",
    "C86_daead",
    "C86_mac",
    "C86_prf",
    "C86_aead_carries_over",
    "C86_aead_rotation",
    "C86_daead_carries_over",
    "C86_daead_rotation",
    "C86_mac_rotation",
    "C86_aead_sizes",
    "C86_daead_sizes",
    "C86_format_determines",
    "C86_new_aead_handle",
    "C86_new_daead_handle",
    "C86_new_mac_handle",
    "C86_new_prf_handle"
   ],
   "note": ""
  },
  {
   "property": "C87",
   "status": "proved",
   "theorems": [
    "C87_basic_programs",
    "C87_aead_cli",
    "C87_cleartext_cli",
    "C87_encrypted_cli",
    "C87_daead_cli",
    "C87_mac_cli",
    "C87_aead_rotation",
    "C87_daead_rotation",
    "C87_mac_rotation",
    "C87_cleartext_pipeline",
    "C87_encrypted_pipeline",
    "C87_walkthrough",
    "C87_envelope",
    "C87_envelope_handle",
    "C87_envelope_cli",
    "C87_gcs_cli"
   ],
   "note": ""
  },
  {
   "property": "C88",
   "status": "proved",
   "theorems": [
    "C88_point_codec",
    "C88_point_round_trip",
    "C88_encrypt_made",
    "C88_encrypts",
    "C88_decrypt_made",
    "C88_decrypts",
    "C88_round_trip",
    "C88_ciphertext_size",
    "C88_encrypts_only",
    "C88_decrypts_only",
    "C88_low_order_refuted",
    "C88_sizes_wrap_refuted",
    "C88_sizes_wrap_decryption_refuted"
   ],
   "note": ""
  },
  {
   "property": "C89",
   "status": "proved",
   "theorems": [
    "C89_new_key",
    "C89_new_key_only",
    "C89_public_key",
    "C89_no_new_public",
    "C89_public_only_private",
    "C89_templates",
    "C89_encrypt_made",
    "C89_decrypt_made",
    "C89_encrypts",
    "C89_decrypts",
    "C89_round_trip",
    "C89_from_format",
    "C89_encrypts_only",
    "C89_decrypts_only",
    "C89_other_dem",
    "C89_new_key_works_refuted"
   ],
   "note": ""
  },
  {
   "property": "C90",
   "status": "proved",
   "theorems": [
    "C90_encrypt",
    "C90_decrypt",
    "C90_round_trip",
    "C90_public_handle",
    "C90_new_handle"
   ],
   "note": ""
  },
  {
   "property": "C91",
   "status": "proved",
   "theorems": [
    "C91_verifier_made",
    "C91_verifies",
    "C91_signer_made",
    "C91_signs",
    "C91_round_trip",
    "C91_public_key",
    "C91_public_only",
    "C91_new_key",
    "C91_new_key_only",
    "C91_new_key_good",
    "C91_no_new_public",
    "C91_from_format",
    "C91_templates",
    "C91_new_key_works_refuted",
    "C91_signer_matches_refuted"
   ],
   "note": ""
  },
  {
   "property": "C92",
   "status": "proved",
   "theorems": [
    "C92_sign",
    "C92_verify",
    "C92_round_trip",
    "C92_public_handle",
    "C92_new_handle"
   ],
   "note": ""
  },
  {
   "property": "C93",
   "status": "proved",
   "theorems": [
    "C93_verifier_made",
    "C93_verifies",
    "C93_signer_made",
    "C93_signs",
    "C93_round_trip",
    "C93_public_key",
    "C93_public_only",
    "C93_new_key",
    "C93_new_key_only",
    "C93_no_new_public",
    "C93_from_format",
    "C93_mac_made",
    "C93_mac_computes",
    "C93_new_mac_key",
    "C93_new_mac_made",
    "C93_templates"
   ],
   "note": ""
  },
  {
   "property": "C94",
   "status": "proved",
   "theorems": [
    "C94_mac",
    "C94_sign",
    "C94_verify",
    "C94_mac_round_trip",
    "C94_signature_round_trip",
    "C94_public_handle",
    "C94_new_mac_handle",
    "C94_new_sign_handle"
   ],
   "note": ""
  },
  {
   "property": "C95",
   "status": "proved",
   "theorems": [
    "C95_encrypt_made",
    "C95_encrypts",
    "C95_decrypt_made",
    "C95_decrypts",
    "C95_round_trip",
    "C95_public_key",
    "C95_public_only",
    "C95_no_new_public",
    "C95_new_key",
    "C95_new_key_only",
    "C95_from_format",
    "C95_templates",
    "C95_new_key_works_refuted",
    "C95_accepted_key_works_refuted"
   ],
   "note": ""
  },
  {
   "property": "C96",
   "status": "proved",
   "theorems": [
    "C96_encrypt",
    "C96_decrypt",
    "C96_round_trip",
    "C96_public_handle",
    "C96_new_handle"
   ],
   "note": ""
  },
  {
   "property": "C97",
   "status": "proved",
   "theorems": [
    "C97_encrypt",
    "C97_decrypt",
    "C97_round_trip",
    "C97_public_handle",
    "C97_cli_encrypt",
    "C97_cli_decrypt",
    "C97_cli_files",
    "C97_basic"
   ],
   "note": ""
  },
  {
   "property": "C98",
   "status": "proved",
   "theorems": [
    "C98_cli_sign",
    "C98_cli_verify",
    "C98_cli_files",
    "C98_basic"
   ],
   "note": ""
  },
  {
   "property": "C99",
   "status": "proved",
   "theorems": [
    "C99_jwk_verifies_the_same",
    "C99_sign",
    "C99_publish",
    "C99_verify",
    "C99_files"
   ],
   "note": ""
  },
  {
   "property": "C100",
   "status": "proved",
   "theorems": [
    "C100_exported",
    "C100_imported",
    "C100_imports",
    "C100_verifies",
    "C100_keeps",
    "C100_adds_nothing",
    "C100_circle"
   ],
   "note": ""
  },
  {
   "property": "C101",
   "status": "proved",
   "theorems": [
    "C101_writes",
    "C101_reads",
    "C101_reads_only",
    "C101_rotation",
    "C101_revoked"
   ],
   "note": ""
  },
  {
   "property": "C102",
   "status": "proved",
   "theorems": [
    "C102_distributable",
    "C102_kept_secret",
    "C102_signature",
    "C102_jwt",
    "C102_hybrid"
   ],
   "note": ""
  },
  {
   "property": "C103",
   "status": "proved",
   "theorems": [
    "C103_histories",
    "C103_aead",
    "C103_daead",
    "C103_mac"
   ],
   "note": ""
  },
  {
   "property": "C104",
   "status": "proved",
   "theorems": [
    "C104_signatures"
   ],
   "note": ""
  },
  {
   "property": "C105",
   "status": "proved",
   "theorems": [
    "C105_hybrid"
   ],
   "note": ""
  },
  {
   "property": "C106",
   "status": "proved",
   "theorems": [
    "C106_mac",
    "C106_signatures"
   ],
   "note": ""
  }
 ]
}