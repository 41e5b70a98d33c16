{
 "claims": [
  {
   "property": "C01",
   "status": "proved",
   "theorems": [
    "C01_signature_sound"
   ],
   "note": ""
  },
  {
   "property": "C02",
   "status": "proved",
   "theorems": [
    "C02_client_data_bound"
   ],
   "note": ""
  },
  {
   "property": "C03",
   "status": "proved",
   "theorems": [
    "C03_login_token_binding",
    "C03_registration_token_binding"
   ],
   "note": ""
  },
  {
   "property": "C04",
   "status": "proved",
   "theorems": [
    "C04_rp_hash_and_flags"
   ],
   "note": ""
  },
  {
   "property": "C05",
   "status": "proved",
   "theorems": [
    "C05_login_extensions",
    "C05_registration_extensions"
   ],
   "note": ""
  },
  {
   "property": "C06",
   "status": "proved",
   "theorems": [
    "C06_not_allowed",
    "C06_allowed"
   ],
   "note": ""
  },
  {
   "property": "C07",
   "status": "proved",
   "theorems": [
    "C07_user_is_owner"
   ],
   "note": ""
  },
  {
   "property": "C08",
   "status": "proved",
   "theorems": [
    "C08_rp_in_force",
    "C08_rp_missing"
   ],
   "note": ""
  },
  {
   "property": "C09",
   "status": "proved",
   "theorems": [
    "C09_counter_larger",
    "C09_clone_detected"
   ],
   "note": ""
  },
  {
   "property": "C10",
   "status": "proved",
   "theorems": [
    "C10_exact"
   ],
   "note": ""
  },
  {
   "property": "C11",
   "status": "proved",
   "theorems": [
    "C11_registrar_discipline",
    "C11_failed_check_registers_nothing"
   ],
   "note": ""
  },
  {
   "property": "C12",
   "status": "proved",
   "theorems": [
    "C12_login_errors",
    "C12_registration_errors"
   ],
   "note": ""
  },
  {
   "property": "C13",
   "status": "proved",
   "theorems": [
    "C13_error_accuracy"
   ],
   "note": ""
  },
  {
   "property": "C14",
   "status": "proved",
   "theorems": [
    "C14_counters_increase"
   ],
   "note": ""
  },
  {
   "property": "C15",
   "status": "proved",
   "theorems": [
    "C15_no_replay"
   ],
   "note": ""
  },
  {
   "property": "C16",
   "status": "partial",
   "theorems": [
    "C16_zero_counter_refuted",
    "C16_stored_zero_refused",
    "C16_no_stored_counter_partial"
   ],
   "note": "REFUTED: a stored counter of 0 with a presented counter of 0 raises SignatureCountError. The partial theorem covers registrars that store no counter."
  },
  {
   "property": "C17",
   "status": "partial",
   "theorems": [
    "C17_replay_refuted",
    "C17_decrease_refuted",
    "C17_compare_and_set_partial",
    "C17_course",
    "C17_changed",
    "C17_overtaken",
    "C17_apart_partial",
    "C17_apart_once_partial"
   ],
   "note": "REFUTED: get_credential_data and register_credential_assertion are separate calls, so two interleaved logins can both succeed with one counter and the stored counter can decrease. The partial theorems show that it holds for a registrar that compares and sets, and when no two logins with the credential are between lookup and storage at the same time. C17_course, C17_changed and C17_overtaken hold of every interleaving."
  },
  {
   "property": "C18",
   "status": "proved",
   "theorems": [
    "C18_registration_sound"
   ],
   "note": ""
  },
  {
   "property": "C19",
   "status": "proved",
   "theorems": [
    "C19_exact",
    "C19_exact_none"
   ],
   "note": ""
  },
  {
   "property": "C20",
   "status": "proved",
   "theorems": [
    "C20_registrar_discipline"
   ],
   "note": ""
  },
  {
   "property": "C21",
   "status": "partial",
   "theorems": [
    "C21_u2f_refuted",
    "C21_android_refuted",
    "C21_attest_partial",
    "C21_only_none_registered",
    "C21_repaired",
    "C21_repair_conservative"
   ],
   "note": "REFUTED for every format but 'none': the backend passes the public key instead of the attestation object to attest(). The partial theorem is about attest() itself; C21_repaired shows that passing the object makes registration exact for every format with an attester."
  },
  {
   "property": "C22",
   "status": "proved",
   "theorems": [
    "C22_unsupported_never_registered"
   ],
   "note": ""
  },
  {
   "property": "C23",
   "status": "partial",
   "theorems": [
    "C23_raw_id_refuted",
    "C23_raw_id_ignored",
    "C23_attested_id_partial"
   ],
   "note": "REFUTED: the rawId of a registration is never compared with the attested credential id. The partial theorem shows which id is registered."
  },
  {
   "property": "C24",
   "status": "proved",
   "theorems": [
    "C24_attested_data_required"
   ],
   "note": ""
  },
  {
   "property": "C25",
   "status": "proved",
   "theorems": [
    "C25_client_data_separated",
    "C25_response_class"
   ],
   "note": ""
  },
  {
   "property": "C26",
   "status": "proved",
   "theorems": [
    "C26_u2f"
   ],
   "note": ""
  },
  {
   "property": "C27",
   "status": "proved",
   "theorems": [
    "C27_android_key"
   ],
   "note": ""
  },
  {
   "property": "C28",
   "status": "proved",
   "theorems": [
    "C28_dispatch"
   ],
   "note": ""
  },
  {
   "property": "C29",
   "status": "proved",
   "theorems": [
    "C29_layout",
    "C29_layout_prefix"
   ],
   "note": ""
  },
  {
   "property": "C30",
   "status": "proved",
   "theorems": [
    "C30_auth_data_round_trip"
   ],
   "note": ""
  },
  {
   "property": "C31",
   "status": "proved",
   "theorems": [
    "C31_keys_usable"
   ],
   "note": ""
  },
  {
   "property": "C32",
   "status": "partial",
   "theorems": [
    "C32_cose_round_trip_partial",
    "C32_base_iv_dropped",
    "C32_round_trip_refuted"
   ],
   "note": "REFUTED: base_IV is written only if key_ops is set (converters.py:173). The partial theorem covers keys without a Base IV or with key_ops; C32_base_iv_dropped is the exact result."
  },
  {
   "property": "C33",
   "status": "proved",
   "theorems": [
    "C33_cose_key",
    "C33_cose_key_bytes"
   ],
   "note": ""
  },
  {
   "property": "C34",
   "status": "proved",
   "theorems": [
    "C34_statements"
   ],
   "note": ""
  },
  {
   "property": "C35",
   "status": "proved",
   "theorems": [
    "C35_extensions"
   ],
   "note": ""
  },
  {
   "property": "C36",
   "status": "proved",
   "theorems": [
    "C36_credential_round_trip"
   ],
   "note": ""
  },
  {
   "property": "C37",
   "status": "proved",
   "theorems": [
    "C37_credential"
   ],
   "note": ""
  },
  {
   "property": "C38",
   "status": "partial",
   "theorems": [
    "C38_client_data_exact",
    "C38_last_member",
    "C38_round_trip",
    "C38_failures",
    "C38_errors_partial",
    "C38_long_integer",
    "C38_deep_nesting",
    "C38_errors_refuted"
   ],
   "note": "REFUTED as to errors: json.loads raises a bare ValueError for integers with too many digits and RecursionError for deep nesting. What parses is exact (C38_client_data_exact); the partial theorem bounds the length of the data."
  },
  {
   "property": "C39",
   "status": "proved",
   "theorems": [
    "C39_origin_exact",
    "C39_origin_sound"
   ],
   "note": ""
  },
  {
   "property": "C40",
   "status": "proved",
   "theorems": [
    "C40_canonical"
   ],
   "note": ""
  },
  {
   "property": "C41",
   "status": "partial",
   "theorems": [
    "C41_default_port_refuted",
    "C41_same_form_partial"
   ],
   "note": "REFUTED for every host: the authority text, port included, is kept as host name. The partial theorem covers origins that both show the port or both do not."
  },
  {
   "property": "C42",
   "status": "partial",
   "theorems": [
    "C42_trailing_ignored",
    "C42_trailing_refuted",
    "C42_fields_consumed_partial"
   ],
   "note": "REFUTED for every accepted input: cbor2.loads ignores bytes after the item. The partial theorem shows that the authenticator data inside is consumed entirely."
  },
  {
   "property": "C43",
   "status": "proved",
   "theorems": [
    "C43_attestation_object"
   ],
   "note": ""
  },
  {
   "property": "C44",
   "status": "proved",
   "theorems": [
    "C44_url_encoding",
    "C44_url_round_trip",
    "C44_encoding_injective",
    "C44_std_round_trip"
   ],
   "note": ""
  },
  {
   "property": "C45",
   "status": "partial",
   "theorems": [
    "C45_strict_refuted",
    "C45_junk_ignored",
    "C45_url_decoding",
    "C45_std_decoding",
    "C45_canonical_partial",
    "C45_closed_or_not",
    "C45_std_closed",
    "C45_url_closed",
    "C45_std_never_closed",
    "C45_url_never_closed"
   ],
   "note": "REFUTED: characters outside the alphabet are skipped and unused bits ignored. The exact results are C45_url_decoding and C45_std_decoding; the partial theorem covers canonical texts."
  },
  {
   "property": "C46",
   "status": "proved",
   "theorems": [
    "C46_round_trip",
    "C46_camel",
    "C46_extension_keys"
   ],
   "note": ""
  },
  {
   "property": "C47",
   "status": "proved",
   "theorems": [
    "C47_result",
    "C47_success_iff",
    "C47_failures",
    "C47_no_null",
    "C47_enum_null",
    "C47_first_obstacle",
    "C47_shared",
    "C47_finite",
    "C47_cyclic"
   ],
   "note": ""
  },
  {
   "property": "C48",
   "status": "proved",
   "theorems": [
    "C48_creation",
    "C48_request"
   ],
   "note": ""
  },
  {
   "property": "C49",
   "status": "proved",
   "theorems": [
    "C49_creation_chain",
    "C49_creation_build",
    "C49_request_chain",
    "C49_request_build"
   ],
   "note": ""
  },
  {
   "property": "C50",
   "status": "proved",
   "theorems": [
    "C50_creation_persistent",
    "C50_request_persistent",
    "C50_objects_unchanged",
    "C50_setter_result",
    "C50_attribute",
    "C50_setter_fails",
    "C50_creation_built",
    "C50_request_built"
   ],
   "note": ""
  },
  {
   "property": "C51",
   "status": "proved",
   "theorems": [
    "C51_verify"
   ],
   "note": ""
  },
  {
   "property": "C52",
   "status": "proved",
   "theorems": [
    "C52_validate"
   ],
   "note": ""
  },
  {
   "property": "C53",
   "status": "proved",
   "theorems": [
    "C53_key_conversion",
    "C53_conversion_injective"
   ],
   "note": ""
  },
  {
   "property": "C54",
   "status": "proved",
   "theorems": [
    "C54_stable",
    "C54_users_stable",
    "C54_provenance",
    "C54_counter_exact",
    "C54_user_origin"
   ],
   "note": ""
  },
  {
   "property": "C55",
   "status": "proved",
   "theorems": [
    "C55_challenge_fresh",
    "C55_expired"
   ],
   "note": ""
  },
  {
   "property": "C56",
   "status": "partial",
   "theorems": [
    "C56_challenges_kept",
    "C56_user_ignored",
    "C56_reuse_refuted",
    "C56_other_user_refuted",
    "C56_registration_once_partial",
    "C56_login_once_partial"
   ],
   "note": "REFUTED: challenges are never deleted and their user is never compared: one challenge serves several logins, and a challenge sent to one user registers a credential for another. The partial theorems say that the same response is never accepted twice."
  },
  {
   "property": "C57",
   "status": "partial",
   "theorems": [
    "C57_assignment",
    "C57_isolation_refuted",
    "C57_argument_shared",
    "C57_options_shared",
    "C57_new_builder_partial",
    "C57_old_objects_partial"
   ],
   "note": "REFUTED: setters keep the argument by reference and build() hands out the builder's own objects, so assigning to them changes later builds. The partial theorems cover all other objects."
  },
  {
   "property": "C58",
   "status": "partial",
   "theorems": [
    "C58_numeric_alg_refuted",
    "C58_name_written",
    "C58_value_partial"
   ],
   "note": "REFUTED: a COSEAlgorithmIdentifier.Name member is written as its name. The partial theorem covers Value members."
  },
  {
   "property": "C59",
   "status": "proved",
   "theorems": [
    "C59_login_key",
    "C59_once_registered"
   ],
   "note": ""
  },
  {
   "property": "C60",
   "status": "proved",
   "theorems": [
    "C60_creation_options",
    "C60_request_options",
    "C60_registration_outcome",
    "C60_authentication_outcome",
    "C60_handle_stable"
   ],
   "note": ""
  },
  {
   "property": "C61",
   "status": "proved",
   "theorems": [
    "C61_login_exact",
    "C61_registration_exact",
    "C61_keys_encodable",
    "C61_responses_answered",
    "C61_login_effect",
    "C61_registration_effect"
   ],
   "note": ""
  },
  {
   "property": "C62",
   "status": "proved",
   "theorems": [
    "C62_decoding_exact",
    "C62_der_accepted",
    "C62_unambiguous",
    "C62_failures"
   ],
   "note": ""
  },
  {
   "property": "C63",
   "status": "proved",
   "theorems": [
    "C63_android_key_der",
    "C63_refused"
   ],
   "note": ""
  },
  {
   "property": "C64",
   "status": "partial",
   "theorems": [
    "C64_unknown_authorization_refused",
    "C64_later_versions_refuted"
   ],
   "note": "REFUTED in general: any authorization that is not in the schema (305 earlyBootOnly, 720 and above, ...) makes the whole description undecodable."
  },
  {
   "property": "C65",
   "status": "partial",
   "theorems": [
    "C65_nesting_escapes",
    "C65_nesting_exists",
    "C65_library_errors_refuted"
   ],
   "note": "REFUTED: explicit tags nested to the recursion limit raise RecursionError, which the attester does not catch. C63_refused covers extensions shorter than the limit."
  },
  {
   "property": "C66",
   "status": "proved",
   "theorems": [
    "C66_decoding_exact",
    "C66_tags_conservative",
    "C66_unambiguous",
    "C66_last_entry",
    "C66_failures"
   ],
   "note": ""
  },
  {
   "property": "C67",
   "status": "proved",
   "theorems": [
    "C67_cose_key",
    "C67_auth_data",
    "C67_one_reading",
    "C67_attestation_object"
   ],
   "note": ""
  },
  {
   "property": "C68",
   "status": "proved",
   "theorems": [
    "C68_login",
    "C68_registration"
   ],
   "note": ""
  },
  {
   "property": "C69",
   "status": "partial",
   "theorems": [
    "C69_cose_key",
    "C69_authenticator_data",
    "C69_attestation_object",
    "C69_library_errors_partial",
    "C69_nesting_escapes",
    "C69_library_errors_refuted",
    "C69_maps",
    "C69_long_integer_escapes",
    "C69_long_integer_refuted"
   ],
   "note": "REFUTED: the CBOR decoder's UnicodeDecodeError and RecursionError, and whatever the decoders of tags raise (EOther 998 stands for what is not modelled, tags 25 and 29), are not caught by the parsers, and a message that would show an integer of more than 4300 digits raises ValueError. C69_library_errors_partial has all other failures, and the equivalences give the exception of each failure for any decoder."
  },
  {
   "property": "C70",
   "status": "proved",
   "theorems": [
    "C70_key_conversion",
    "C70_verify",
    "C70_u2f",
    "C70_android_key"
   ],
   "note": ""
  },
  {
   "property": "C71",
   "status": "proved",
   "theorems": [
    "C71_registration_delivered",
    "C71_registration",
    "C71_login",
    "C71_no_lockout",
    "C71_logins"
   ],
   "note": ""
  },
  {
   "property": "C72",
   "status": "proved",
   "theorems": [
    "C72_registration",
    "C72_login",
    "C72_session"
   ],
   "note": ""
  },
  {
   "property": "C73",
   "status": "proved",
   "theorems": [
    "C73_alone",
    "C73_sequential",
    "C73_consistent",
    "C73_rows_kept",
    "C73_provenance",
    "C73_once",
    "C73_login",
    "C73_registration",
    "C73_challenge_unique",
    "C73_sent",
    "C73_failed",
    "C73_answered"
   ],
   "note": ""
  },
  {
   "property": "C74",
   "status": "partial",
   "theorems": [
    "C74_replay_refuted",
    "C74_counter_refuted",
    "C74_increasing_partial",
    "C74_stored_partial",
    "C74_stored_bound_partial",
    "C74_exceeds",
    "C74_written",
    "C74_changed",
    "C74_overtaken",
    "C74_credential_partial",
    "C74_accepted_partial"
   ],
   "note": "REFUTED: the counter is read and written by separate statements, so the same login sent twice can be accepted twice and a stored counter can decrease. The partial theorems cover runs in which logins with the credential do not overlap. C74_exceeds, C74_written, C74_changed and C74_overtaken hold of every run: only an accepted login changes a counter, it exceeds a counter stored while it was handled, and it replaces a counter that it does not exceed only if another login with the credential was accepted meanwhile."
  },
  {
   "property": "C75",
   "status": "partial",
   "theorems": [
    "C75_new_user_refuted",
    "C75_answers_partial",
    "C75_conflict_partial"
   ],
   "note": "REFUTED: of two simultaneous first requests for a new user one fails with IntegrityError (500). The partial theorems list all answers and say that an error needs a conflicting request or a failing statement."
  },
  {
   "property": "C76",
   "status": "proved",
   "theorems": [
    "C76_login_reply",
    "C76_registration_reply",
    "C76_unreadable",
    "C76_nameless"
   ],
   "note": ""
  },
  {
   "property": "C77",
   "status": "proved",
   "theorems": [
    "C77_text",
    "C77_strings",
    "C77_failures",
    "C77_first_defect",
    "C77_creation",
    "C77_request",
    "C77_registration_answer",
    "C77_login_answer"
   ],
   "note": ""
  },
  {
   "property": "C78",
   "status": "proved",
   "theorems": [
    "C78_agreement",
    "C78_injective",
    "C78_count",
    "C78_shared_agreement"
   ],
   "note": ""
  },
  {
   "property": "C79",
   "status": "partial",
   "theorems": [
    "C79_injective_refuted",
    "C79_count_partial"
   ],
   "note": "REFUTED: a login sent twice at the same time is accepted twice although the authenticator signed once (the counter is read and written by separate statements). The partial theorem covers runs in which no two logins with the credential overlap."
  },
  {
   "property": "C80",
   "status": "proved",
   "theorems": [
    "C80_exact",
    "C80_discipline",
    "C80_failure",
    "C80_registered"
   ],
   "note": ""
  },
  {
   "property": "C81",
   "status": "proved",
   "theorems": [
    "C81_create_argument",
    "C81_get_argument"
   ],
   "note": ""
  },
  {
   "property": "C82",
   "status": "proved",
   "theorems": [
    "C82_form",
    "C82_base64",
    "C82_attestation_sent",
    "C82_assertion_sent",
    "C82_registration",
    "C82_login",
    "C82_atob_exact",
    "C82_form_written",
    "C82_quoted",
    "C82_stringified"
   ],
   "note": ""
  },
  {
   "property": "C83",
   "status": "proved",
   "theorems": [
    "C83_registration",
    "C83_login"
   ],
   "note": ""
  },
  {
   "property": "C84",
   "status": "partial",
   "theorems": [
    "C84_accepted",
    "C84_registration_refused",
    "C84_authentication_refused",
    "C84_name_refuted",
    "C84_name_partial"
   ],
   "note": "REFUTED as to the name: the functions of the page share globals, so with overlapping clicks the message can name a user who has no credential. C84_accepted holds for every run; the partial theorem covers runs in which the user waits for one function to end before the next click."
  },
  {
   "property": "C85",
   "status": "partial",
   "theorems": [
    "C85_creation_partial",
    "C85_exclude_refuted",
    "C85_request"
   ],
   "note": "REFUTED for excludeCredentials, for all options that have it: the ids stay base64 texts. The partial theorem has the challenge and the user handle; request options are decoded entirely."
  },
  {
   "property": "C86",
   "status": "proved",
   "theorems": [
    "C86_origin",
    "C86_client_data"
   ],
   "note": ""
  },
  {
   "property": "C87",
   "status": "proved",
   "theorems": [
    "C87_login_first_failure"
   ],
   "note": ""
  },
  {
   "property": "C88",
   "status": "proved",
   "theorems": [
    "C88_registration_first_failure"
   ],
   "note": ""
  },
  {
   "property": "C89",
   "status": "proved",
   "theorems": [
    "C89_asked_by_allowed_page",
    "C89_phished_signature_fails",
    "C89_one_login_each",
    "C89_one_login_each_concurrently"
   ],
   "note": ""
  },
  {
   "property": "C90",
   "status": "partial",
   "theorems": [
    "C90_refuted",
    "C90_partial"
   ],
   "note": "REFUTED: no signature by the new key is checked and the key is never loaded. The partial theorem is exact: whether a registration succeeds does not depend on how keys are loaded and signatures checked."
  },
  {
   "property": "C91",
   "status": "proved",
   "theorems": [
    "C91_form_exact"
   ],
   "note": ""
  },
  {
   "property": "C92",
   "status": "proved",
   "theorems": [
    "C92_key_equality",
    "C92_lookup",
    "C92_absent",
    "C92_decoded_keys"
   ],
   "note": ""
  },
  {
   "property": "C93",
   "status": "proved",
   "theorems": [
    "C93_registration",
    "C93_login"
   ],
   "note": ""
  },
  {
   "property": "C94",
   "status": "proved",
   "theorems": [
    "C94_registration",
    "C94_login",
    "C94_null_created",
    "C94_null_got"
   ],
   "note": ""
  },
  {
   "property": "C95",
   "status": "proved",
   "theorems": [
    "C95_registration",
    "C95_login",
    "C95_honest_registration",
    "C95_honest_login"
   ],
   "note": ""
  },
  {
   "property": "C96",
   "status": "proved",
   "theorems": [
    "C96_creation",
    "C96_request"
   ],
   "note": ""
  },
  {
   "property": "C97",
   "status": "proved",
   "theorems": [
    "C97_server",
    "C97_sequential",
    "C97_accepted",
    "C97_named",
    "C97_asked_registration",
    "C97_asked_login",
    "C97_registration_run",
    "C97_login_run",
    "C97_registration",
    "C97_login"
   ],
   "note": ""
  },
  {
   "property": "C98",
   "status": "proved",
   "theorems": [
    "C98_history",
    "C98_handled",
    "C98_answer",
    "C98_status",
    "C98_others",
    "C98_no_form",
    "C98_page",
    "C98_realised",
    "C98_success",
    "C98_login"
   ],
   "note": ""
  },
  {
   "property": "C99",
   "status": "proved",
   "theorems": [
    "C99_run",
    "C99_determined",
    "C99_says",
    "C99_kill",
    "C99_stop",
    "C99_forgotten",
    "C99_second",
    "C99_said",
    "C99_survives",
    "C99_registers"
   ],
   "note": ""
  },
  {
   "property": "C100",
   "status": "proved",
   "theorems": [
    "C100_exact",
    "C100_valid",
    "C100_form",
    "C100_histories",
    "C100_users",
    "C100_options",
    "C100_names"
   ],
   "note": ""
  }
 ]
}
