{
 "claims": [
  {
   "property": "C01",
   "status": "proved",
   "theorems": [
    "C01_byte_accounting",
    "C01_serialize_returns_bytes"
   ],
   "note": ""
  },
  {
   "property": "C02",
   "status": "proved",
   "theorems": [
    "C02_negotiate_round_trip"
   ],
   "note": ""
  },
  {
   "property": "C03",
   "status": "proved",
   "theorems": [
    "C03_challenge_round_trip"
   ],
   "note": ""
  },
  {
   "property": "C04",
   "status": "proved",
   "theorems": [
    "C04_authenticate_round_trip"
   ],
   "note": ""
  },
  {
   "property": "C05",
   "status": "proved",
   "theorems": [
    "C05_av_list_round_trip"
   ],
   "note": ""
  },
  {
   "property": "C06",
   "status": "proved",
   "theorems": [
    "C06_fixed_round_trips"
   ],
   "note": ""
  },
  {
   "property": "C07",
   "status": "proved",
   "theorems": [
    "C07_decoders_never_panic_refuted",
    "C07_decoders_panic_reasons",
    "C07_structures"
   ],
   "note": "False of the code: refuted by three concrete inputs (field ranges outside the input; an AV pair name starting with NUL in debug builds). C07_decoders_panic_reasons says which panics can occur at all; C08, C48 and C49 say exactly when."
  },
  {
   "property": "C08",
   "status": "proved",
   "theorems": [
    "C08_negotiate_panics_iff"
   ],
   "note": ""
  },
  {
   "property": "C09",
   "status": "proved",
   "theorems": [
    "C09_reencode_negotiate"
   ],
   "note": ""
  },
  {
   "property": "C10",
   "status": "proved",
   "theorems": [
    "C10_reencode_challenge",
    "C10_reencode_challenge_refuted"
   ],
   "note": "False in one corner (target name present but starting with NUL), refuted by a witness; C10_reencode_challenge gives the exact outcome in every case."
  },
  {
   "property": "C11",
   "status": "proved",
   "theorems": [
    "C11_utf16_longest_prefix",
    "C11_utf16_plain_round_trip",
    "C11_utf16_decode_total",
    "C11_utf16_round_trip_refuted"
   ],
   "note": "False in general (refuted); the decoded string is the longest plain prefix, and strings of plain characters round trip."
  },
  {
   "property": "C12",
   "status": "proved",
   "theorems": [
    "C12_oem_is_utf8"
   ],
   "note": ""
  },
  {
   "property": "C13",
   "status": "proved",
   "theorems": [
    "C13_flag_algebra",
    "C13_large_bits"
   ],
   "note": ""
  },
  {
   "property": "C14",
   "status": "proved",
   "theorems": [
    "C14_strict_flags_refuted",
    "C14_all_flags_accepted",
    "C14_strict_effect"
   ],
   "note": "False of the code: refuted; every word is accepted in every build (C14_all_flags_accepted), and C14_strict_effect says what the feature changes at all."
  },
  {
   "property": "C15",
   "status": "proved",
   "theorems": [
    "C15_negotiate_builder",
    "C15_fresh_negotiate"
   ],
   "note": ""
  },
  {
   "property": "C16",
   "status": "proved",
   "theorems": [
    "C16_challenge_builder",
    "C16_single_eol",
    "C16_decoded_challenge",
    "C16_announced_refuted"
   ],
   "note": "C16_challenge_builder from the default message, C16_decoded_challenge from any decoded one. Refuted there: TARGET_INFO is set after an info was added (a list that came without the flag keeps it clear)."
  },
  {
   "property": "C17",
   "status": "proved",
   "theorems": [
    "C17_built_challenge_decodes",
    "C17_decoded_challenge"
   ],
   "note": ""
  },
  {
   "property": "C18",
   "status": "proved",
   "theorems": [
    "C18_key_setter"
   ],
   "note": ""
  },
  {
   "property": "C19",
   "status": "proved",
   "theorems": [
    "C19_target_infos_end_with_eol"
   ],
   "note": ""
  },
  {
   "property": "C20",
   "status": "proved",
   "theorems": [
    "C20_field_layout"
   ],
   "note": ""
  },
  {
   "property": "C21",
   "status": "proved",
   "theorems": [
    "C21_message_types",
    "C21_types_exclusive",
    "C21_encoded_types"
   ],
   "note": ""
  },
  {
   "property": "C22",
   "status": "proved",
   "theorems": [
    "C22_encoding_panics_iff_oversized",
    "C22_encoding_bytes"
   ],
   "note": ""
  },
  {
   "property": "C23",
   "status": "proved",
   "theorems": [
    "C23_accepted_challenge_counts",
    "C23_no_other_challenge",
    "C23_acceptance",
    "C23_protocol_state",
    "C23_recv_challenge_never_panics"
   ],
   "note": ""
  },
  {
   "property": "C24",
   "status": "proved",
   "theorems": [
    "C24_panics_exactly",
    "C24_levels_0_to_2"
   ],
   "note": ""
  },
  {
   "property": "C25",
   "status": "proved",
   "theorems": [
    "C25_negotiate_sent",
    "C25_unsupported_panics"
   ],
   "note": ""
  },
  {
   "property": "C26",
   "status": "proved",
   "theorems": [
    "C26_reply_determined",
    "C26_history_irrelevant"
   ],
   "note": ""
  },
  {
   "property": "C27",
   "status": "proved",
   "theorems": [
    "C27_lmv2_from_server_challenge",
    "C27_ntlmv2_response",
    "C27_response_time"
   ],
   "note": ""
  },
  {
   "property": "C28",
   "status": "proved",
   "theorems": [
    "C28_proof_missing",
    "C28_password_irrelevant",
    "C28_nt_proof_refuted"
   ],
   "note": "False of the code at every reply of levels 3 to 5 (C28_proof_missing, C28_password_irrelevant); refuted by a concrete handshake."
  },
  {
   "property": "C29",
   "status": "proved",
   "theorems": [
    "C29_mic_of_other_message",
    "C29_compute_mic",
    "C29_no_mic_below_3",
    "C29_mic_refuted"
   ],
   "note": "False of the code at every reply of levels 3 to 5: C29_mic_of_other_message says what the MIC covers instead; levels 0 to 2 send zeros."
  },
  {
   "property": "C30",
   "status": "proved",
   "theorems": [
    "C30_session_key_ntlmv1",
    "C30_session_key_ntlmv2",
    "C30_without_key_exchange",
    "C30_session_key_refuted",
    "C30_encrypt_session_key"
   ],
   "note": "True when KEY_EXCH and SIGN or SEAL are set in the challenge (C30_session_key_ntlmv1, _ntlmv2; at levels 0 to 2 with the MS-NLMP key only under EXTENDED_SESSIONSECURITY); false otherwise: C30_without_key_exchange, refuted by a witness."
  },
  {
   "property": "C31",
   "status": "proved",
   "theorems": [
    "C31_kxkey_function",
    "C31_key_exchange_key",
    "C31_key_exchange_key_refuted"
   ],
   "note": "True with EXTENDED_SESSIONSECURITY, refuted without it; the function kxkey itself is right when called as MS-NLMP prescribes."
  },
  {
   "property": "C32",
   "status": "proved",
   "theorems": [
    "C32_ntlmv1_functions",
    "C32_ntlmv1_response"
   ],
   "note": ""
  },
  {
   "property": "C33",
   "status": "proved",
   "theorems": [
    "C33_key_expansion",
    "C33_wrong_length_panics"
   ],
   "note": ""
  },
  {
   "property": "C34",
   "status": "proved",
   "theorems": [
    "C34_lm_hash",
    "C34_lm_hash_weakness"
   ],
   "note": ""
  },
  {
   "property": "C35",
   "status": "proved",
   "theorems": [
    "C35_client_exists_iff",
    "C35_ascii_password",
    "C35_client_new_refuted",
    "C35_names_irrelevant"
   ],
   "note": "False in general (refuted twice); C35_client_exists_iff gives the exact condition, C35_ascii_password the common case."
  },
  {
   "property": "C36",
   "status": "proved",
   "theorems": [
    "C36_nt_hashes",
    "C36_user_case",
    "C36_concatenation"
   ],
   "note": ""
  },
  {
   "property": "C37",
   "status": "proved",
   "theorems": [
    "C37_backslash",
    "C37_at",
    "C37_plain",
    "C37_nothing_lost"
   ],
   "note": ""
  },
  {
   "property": "C38",
   "status": "proved",
   "theorems": [
    "C38_workstation",
    "C38_trimmed_unique",
    "C38_sent"
   ],
   "note": ""
  },
  {
   "property": "C39",
   "status": "proved",
   "theorems": [
    "C39_filetime_conversion",
    "C39_filetime_errors",
    "C39_filetime_monotone"
   ],
   "note": ""
  },
  {
   "property": "C40",
   "status": "proved",
   "theorems": [
    "C40_windows_filetime_refuted",
    "C40_never_right",
    "C40_never_read_right"
   ],
   "note": "False of the code: refuted, and no time whatever is converted or read correctly."
  },
  {
   "property": "C41",
   "status": "proved",
   "theorems": [
    "C41_lenient_authenticate"
   ],
   "note": ""
  },
  {
   "property": "C42",
   "status": "proved",
   "theorems": [
    "C42_reply_decodes",
    "C42_old_reply_decodes",
    "C42_version_flag_breaks",
    "C42_reply_decodes_refuted"
   ],
   "note": "True at levels 3 to 5, and at levels 0 to 2 without the VERSION flag; with it no reply decodes (refuted)."
  },
  {
   "property": "C43",
   "status": "proved",
   "theorems": [
    "C43_trailing_bytes"
   ],
   "note": ""
  },
  {
   "property": "C44",
   "status": "proved",
   "theorems": [
    "C44_short_inputs"
   ],
   "note": ""
  },
  {
   "property": "C45",
   "status": "proved",
   "theorems": [
    "C45_version_try_from",
    "C45_version_from_round_trip"
   ],
   "note": ""
  },
  {
   "property": "C46",
   "status": "proved",
   "theorems": [
    "C46_flags_printed",
    "C46_all_bits_named",
    "C46_flags_told_apart"
   ],
   "note": ""
  },
  {
   "property": "C47",
   "status": "proved",
   "theorems": [
    "C47_buffer_printed",
    "C47_buffers_told_apart"
   ],
   "note": ""
  },
  {
   "property": "C48",
   "status": "proved",
   "theorems": [
    "C48_challenge_panics_iff",
    "C48_challenge_panics_release"
   ],
   "note": ""
  },
  {
   "property": "C49",
   "status": "proved",
   "theorems": [
    "C49_authenticate_panics_iff"
   ],
   "note": ""
  },
  {
   "property": "C50",
   "status": "proved",
   "theorems": [
    "C50_byte_order_refuted",
    "C50_every_name_differs",
    "C50_rest_same",
    "C50_account_hash_refuted"
   ],
   "note": "False of the code: refuted; C50_rest_same says what does not depend on the byte order."
  },
  {
   "property": "C51",
   "status": "proved",
   "theorems": [
    "C51_context_passed_on",
    "C51_errors_reported",
    "C51_returned",
    "C51_completed",
    "C51_failure_reported_refuted"
   ],
   "note": "The first half is false of the code (refuted: a refused logon is returned as an empty reply); C51_errors_reported says which errors are. The second half holds: C51_context_passed_on."
  },
  {
   "property": "C52",
   "status": "proved",
   "theorems": [
    "C52_fill_from_env",
    "C52_empty_env",
    "C52_ascii_upper"
   ],
   "note": ""
  },
  {
   "property": "C53",
   "status": "proved",
   "theorems": [
    "C53_decoded_negotiate",
    "C53_decoded_challenge",
    "C53_decoded_authenticate"
   ],
   "note": ""
  },
  {
   "property": "C54",
   "status": "proved",
   "theorems": [
    "C54_reencode_authenticate"
   ],
   "note": ""
  },
  {
   "property": "C55",
   "status": "proved",
   "theorems": [
    "C55_release_accepts_debug"
   ],
   "note": ""
  },
  {
   "property": "C56",
   "status": "proved",
   "theorems": [
    "C56_messages_delivered",
    "C56_same_panics",
    "C56_all_panic",
    "C56_parts_delivered",
    "C56_counts",
    "C56_vectors",
    "C56_pairs_delivered_refuted"
   ],
   "note": "True of messages and of every part but AV pairs with text (refuted): their text goes through one call of write, win or lose."
  },
  {
   "property": "C57",
   "status": "proved",
   "theorems": [
    "C57_reply_flags",
    "C57_agrees_to_offered",
    "C57_agrees_to_offered_refuted",
    "C57_agrees_to_server_refuted"
   ],
   "note": "True at levels 3 to 5 for what the client offered; false at levels 0 to 2 and for what the server requested (both refuted)."
  },
  {
   "property": "C58",
   "status": "proved",
   "theorems": [
    "C58_target_irrelevant",
    "C58_negotiate_reveals_no_user",
    "C58_reply_reveals_user"
   ],
   "note": ""
  },
  {
   "property": "C59",
   "status": "proved",
   "theorems": [
    "C59_key_kept",
    "C59_key_discarded",
    "C59_key_of_last_message_refuted"
   ],
   "note": "Kept and discarded as stated; false that it is the key of the last reply (refuted)."
  },
  {
   "property": "C60",
   "status": "proved",
   "theorems": [
    "C60_levels_3_to_5",
    "C60_levels_1_and_2",
    "C60_levels_1_and_2_refuted"
   ],
   "note": "Levels 1 and 2 differ in the NEGOTIATE message only (full equality refuted)."
  },
  {
   "property": "C61",
   "status": "proved",
   "theorems": [
    "C61_encoders_injective",
    "C61_authenticate_injective_refuted",
    "C61_parts_injective"
   ],
   "note": "The exact exceptions are in the statement; equality of the LM reading is refuted."
  },
  {
   "property": "C62",
   "status": "proved",
   "theorems": [
    "C62_nt_hash_suffices",
    "C62_nt_hash_suffices_refuted"
   ],
   "note": "False at level 0 (refuted for primitives that satisfy the contract with a constant MD4)."
  },
  {
   "property": "C63",
   "status": "proved",
   "theorems": [
    "C63_new",
    "C63_target_whole"
   ],
   "note": ""
  },
  {
   "property": "C64",
   "status": "proved",
   "theorems": [
    "C64_client_challenge_visible",
    "C64_replies_fresh",
    "C64_old_replies_repeat",
    "C64_replies_fresh_refuted"
   ],
   "note": "False without extended session security (refuted); C64_old_replies_repeat says the reply is then the same whatever is drawn."
  },
  {
   "property": "C65",
   "status": "proved",
   "theorems": [
    "C65_accounts_told_apart",
    "C65_levels_told_apart_refuted"
   ],
   "note": "The exact level cannot be told (refuted)."
  },
  {
   "property": "C66",
   "status": "proved",
   "theorems": [
    "C66_challenge_bound",
    "C66_received_bytes_bound_refuted"
   ],
   "note": "Bound to the decoded challenge; false of the bytes received (refuted)."
  },
  {
   "property": "C67",
   "status": "proved",
   "theorems": [
    "C67_accepted",
    "C67_logon",
    "C67_same_key_refuted",
    "C67_new_levels",
    "C67_logon_refuted"
   ],
   "note": "Proved at levels 0 to 2 (the key with extended session security); false without that flag and at levels 3 to 5 (both refuted)."
  },
  {
   "property": "C68",
   "status": "proved",
   "theorems": [
    "C68_one_challenge",
    "C68_no_replay",
    "C68_real_des",
    "C68_no_replay_refuted"
   ],
   "note": "Proved for challenges that agree on extended session security; refuted without that condition. C68_real_des: the hypothesis des_permutes holds of DES."
  },
  {
   "property": "C69",
   "status": "proved",
   "theorems": [
    "C69_decoders_erase",
    "C69_error_type"
   ],
   "note": ""
  },
  {
   "property": "C70",
   "status": "proved",
   "theorems": [
    "C70_locations",
    "C70_plain_error"
   ],
   "note": ""
  },
  {
   "property": "C71",
   "status": "proved",
   "theorems": [
    "C71_negotiate_error",
    "C71_fixed_part"
   ],
   "note": ""
  },
  {
   "property": "C72",
   "status": "proved",
   "theorems": [
    "C72_challenge_error",
    "C72_fixed_part"
   ],
   "note": ""
  },
  {
   "property": "C73",
   "status": "proved",
   "theorems": [
    "C73_authenticate_error",
    "C73_fixed_part"
   ],
   "note": ""
  },
  {
   "property": "C74",
   "status": "proved",
   "theorems": [
    "C74_fixed_structures",
    "C74_av_pair",
    "C74_responses",
    "C74_never"
   ],
   "note": ""
  },
  {
   "property": "C75",
   "status": "proved",
   "theorems": [
    "C75_negotiate_never",
    "C75_challenge_incomplete",
    "C75_authenticate_incomplete",
    "C75_more_bytes_do_not_help",
    "C75_beginnings",
    "C75_amount"
   ],
   "note": ""
  },
  {
   "property": "C76",
   "status": "proved",
   "theorems": [
    "C76_negotiate_size",
    "C76_challenge_size",
    "C76_authenticate_size"
   ],
   "note": ""
  },
  {
   "property": "C77",
   "status": "proved",
   "theorems": [
    "C77_log_erases",
    "C77_negotiate_log",
    "C77_challenge_log",
    "C77_authenticate_log",
    "C77_any_input",
    "C77_decimal"
   ],
   "note": ""
  },
  {
   "property": "C78",
   "status": "proved",
   "theorems": [
    "C78_one_call",
    "C78_history",
    "C78_compute_mic"
   ],
   "note": ""
  },
  {
   "property": "C79",
   "status": "proved",
   "theorems": [
    "C79_every_string",
    "C79_structures_form",
    "C79_state_form",
    "C79_told_apart",
    "C79_structures_told_apart",
    "C79_negotiate_form",
    "C79_challenge_form",
    "C79_authenticate_form",
    "C79_string_form"
   ],
   "note": ""
  },
  {
   "property": "C80",
   "status": "proved",
   "theorems": [
    "C80_one_line",
    "C80_no_line_break"
   ],
   "note": ""
  },
  {
   "property": "C81",
   "status": "proved",
   "theorems": [
    "C81_key_printed",
    "C81_key_hidden_refuted"
   ],
   "note": ""
  },
  {
   "property": "C82",
   "status": "proved",
   "theorems": [
    "C82_negotiate",
    "C82_challenge",
    "C82_authenticate",
    "C82_no_beginning_decodes"
   ],
   "note": ""
  },
  {
   "property": "C83",
   "status": "proved",
   "theorems": [
    "C83_encoded",
    "C83_decoded",
    "C83_encoded_refuted",
    "C83_decoded_refuted",
    "C83_replies"
   ],
   "note": "Refuted for writing and reading; the positive theorems say where the MIC is and what a conforming server takes for it."
  },
  {
   "property": "C84",
   "status": "proved",
   "theorems": [
    "C84_echoed",
    "C84_announced_refuted",
    "C84_lm_response_refuted"
   ],
   "note": "Both refuted; C84_echoed says what is sent instead."
  },
  {
   "property": "C85",
   "status": "proved",
   "theorems": [
    "C85_word_size",
    "C85_equal",
    "C85_exact",
    "C85_narrow_refuted"
   ],
   "note": ""
  },
  {
   "property": "C86",
   "status": "proved",
   "theorems": [
    "C86_exactly",
    "C86_success",
    "C86_silent_failure",
    "C86_defined_refuted",
    "C86_fresh_refuted",
    "C86_complete_package"
   ],
   "note": "Refuted; C86_exactly gives the exact condition, C86_complete_package the packages for which there is no undefined behaviour."
  },
  {
   "property": "C87",
   "status": "proved",
   "theorems": [
    "C87_never_released",
    "C87_released_refuted"
   ],
   "note": "Refuted; C87_never_released: no handle is ever released."
  },
  {
   "property": "C88",
   "status": "proved",
   "theorems": [
    "C88_any_challenge",
    "C88_any_flags",
    "C88_plain_response",
    "C88_same_response",
    "C88_levels_3_to_5",
    "C88_insists_refuted"
   ],
   "note": "Refuted; C88_any_challenge and C88_any_flags: no flag makes a client refuse. C88_plain_response says what is sent."
  },
  {
   "property": "C89",
   "status": "proved",
   "theorems": [
    "C89_never_anonymous",
    "C89_anonymous_refuted"
   ],
   "note": "Refuted; C89_never_anonymous: no reply is anonymous."
  },
  {
   "property": "C90",
   "status": "proved",
   "theorems": [
    "C90_layout",
    "C90_unbroken",
    "C90_structures_unbroken",
    "C90_told_apart",
    "C90_negotiate_lines",
    "C90_strings"
   ],
   "note": ""
  },
  {
   "property": "C91",
   "status": "proved",
   "theorems": [
    "C91_negotiate_ignores",
    "C91_challenge_ignores",
    "C91_authenticate_ignores",
    "C91_one_encoding_refuted"
   ],
   "note": "Refuted; the C91_..._ignores theorems say which bytes are looked at, C91_ex which bytes of three messages are not."
  },
  {
   "property": "C92",
   "status": "proved",
   "theorems": [
    "C92_user_case",
    "C92_names_ignored",
    "C92_names_bound",
    "C92_domain_case_refuted",
    "C92_names_told_apart_refuted"
   ],
   "note": "C92_user_case and C92_names_bound hold for every account; C92_names_ignored shows that levels 0 to 2 are not tied to names. Two stronger readings are refuted: the case of the domain counts (C92_domain_case_refuted), and moving letters between user and domain goes unnoticed (C92_names_told_apart_refuted)."
  },
  {
   "property": "C93",
   "status": "proved",
   "theorems": [
    "C93_encoders",
    "C93_client"
   ],
   "note": "Both orders of bytes are covered; hosts of different byte order do differ (see the byte order findings). A panic is compared as such, not by its message."
  },
  {
   "property": "C94",
   "status": "proved",
   "theorems": [
    "C94_logon",
    "C94_old_logon",
    "C94_version_flag"
   ],
   "note": "Proved, with the finding C94_version_flag (no logon at levels 0 to 2 with the VERSION flag). The session key of levels 0 to 2 is the one the crate derives, which C31 compares with MS-NLMP."
  },
  {
   "property": "C95",
   "status": "proved",
   "theorems": [
    "C95_parts",
    "C95_parts_suffice",
    "C95_last_two",
    "C95_short_passwords"
   ],
   "note": "Refuted by the general theorems C95_parts and C95_parts_suffice; C95_last_two and C95_short_passwords quantify it."
  },
  {
   "property": "C96",
   "status": "proved",
   "theorems": [
    "C96_panics",
    "C96_negotiate",
    "C96_reply",
    "C96_mic",
    "C96_decodes",
    "C96_decodes_new",
    "C96_revision"
   ],
   "note": "The field is private and only the crate's tests set it; the model's client carries it. The simulation covers every history; C96_mic fixes the MIC for the first reply, as C29 does. From level 3 on decoding needs a challenge that came over the wire and a clock the host can represent, as in C42."
  },
  {
   "property": "C97",
   "status": "proved",
   "theorems": [
    "C97_split",
    "C97_tampering",
    "C97_reply_refuted"
   ],
   "note": "C97_split needs no condition on flags: a version can not be mistaken for the signature of the next message. C97_reply_refuted: two machines, one MIC. Extends C66, which compares two challenges of one client."
  },
  {
   "property": "C98",
   "status": "proved",
   "theorems": [
    "C98_understood",
    "C98_oem",
    "C98_oem_refuted",
    "C98_unknown",
    "C98_flags"
   ],
   "note": "Positive for UNICODE servers in any layout; refuted for OEM names (C98_oem shows what is read instead); unknown AV pairs and flags characterised."
  },
  {
   "property": "C99",
   "status": "proved",
   "theorems": [
    "C99_offer",
    "C99_code_page",
    "C99_answer_v1",
    "C99_answer_v2",
    "C99_v2_never",
    "C99_v2_refuted"
   ],
   "note": "NEGOTIATE and NTLMv1 replies understood in any layout; NTLMv2 responses refuted (C99_answer_v2 shows they are read as NTLMv1; C99_v2_never shows no v2 reading is ever right); code page letters rejected."
  },
  {
   "property": "C100",
   "status": "proved",
   "theorems": [
    "C100_same",
    "C100_linear",
    "C100_bounded",
    "C100_once_refuted"
   ],
   "note": "Proved of the decoders with a work counter (Cost.v), which C100_same shows to be the decoders of the model. Units and what is left out (error values, logging) are stated at the head of Cost.v. That each byte is looked at once is refuted (C100_once_refuted)."
  },
  {
   "property": "C101",
   "status": "proved",
   "theorems": [
    "C101_constant",
    "C101_negotiate",
    "C101_asks",
    "C101_reply",
    "C101_mic",
    "C101_panics",
    "C101_one_level_refuted"
   ],
   "note": "Levels.v models the three calls of V::version() one by one; C101_constant shows that Client.v is the case of a constant function. Negotiating at one level and replying at another is shown to be what a client of the second level sends but for the MIC; that the whole reply is one of a single level is refuted."
  },
  {
   "property": "C102",
   "status": "proved",
   "theorems": [
    "C102_reply",
    "C102_drawn",
    "C102_other_calls",
    "C102_no_challenge",
    "C102_failure",
    "C102_alone",
    "C102_all_calls",
    "C102_no_byte_twice"
   ],
   "note": "Os.v models the calls of OsRng and SystemTime::now() one by one against any operating system, which may refuse random bytes; C102_reply and C102_drawn tie it to the client of the other theorems, whose random values are arguments. C102_no_byte_twice is about a source that gives out one byte after another, which is how a reader of random bytes is used; nothing is said about distributions."
  },
  {
   "property": "C103",
   "status": "proved",
   "theorems": [
    "C103_both_ways",
    "C103_response",
    "C103_old_response",
    "C103_same_shape",
    "C103_not_expected",
    "C103_not_expected_old",
    "C103_expected"
   ],
   "note": "C103_response and C103_old_response give every reply, encrypted key and session key on hosts of either byte order (C27, C30, C32 are the little-endian case). C103_not_expected is about a server that keeps hashes of little-endian text, as MS-NLMP demands; it holds for any primitives that meet the contract, so the conclusion names the collisions."
  },
  {
   "property": "C104",
   "status": "proved",
   "theorems": [
    "C104_swap",
    "C104_challenge",
    "C104_reply",
    "C104_same_bytes"
   ],
   "note": "Big-endian hosts write the names of AV pairs in their own byte order (C50) and read them in little-endian order; C104 gives exactly what each side reads. Names are required to be text the decoder can carry in both forms (one unit per character, no NUL, no surrogate), which plain ASCII always is (C104_swap)."
  },
  {
   "property": "C105",
   "status": "proved",
   "theorems": [
    "C105_like_before",
    "C105_panic_keeps",
    "C105_stderr",
    "C105_no_remains",
    "C105_panic_keeps_refuted"
   ],
   "note": "Unwind.v has the statements of the three calls on &mut self, with std::mem::replace, the buffer and the two dbg! lines; C105_like_before ties it to Client.v, whose calls leave the client as it was when they panic. What a panicking serialisation leaves in the buffer is arbitrary (m_torn), a superset of what the code can leave. Expected false and refuted: a panic leaves the protocol state as it was. Aborts (allocation failure, panic during a panic) end the process and are not modelled."
  },
  {
   "property": "C106",
   "status": "proved",
   "theorems": [
    "C106_password",
    "C106_account",
    "C106_name",
    "C106_defined",
    "C106_exact"
   ],
   "note": "Views.v models the memory a Vec<u16> is kept in: blocks, uninitialised spare capacity, freeing at the end of the scope and while unwinding, and undefined behaviour as a value; C106_password, C106_account and C106_name tie it to the functions all other theorems use. The rules of from_raw_parts are those of its documentation, for u8 (no alignment); aliasing is not modelled, as nothing writes while a view is in use."
  },
  {
   "property": "C107",
   "status": "proved",
   "theorems": [
    "C107_offer",
    "C107_offer_only",
    "C107_answer_old",
    "C107_answer_old_only",
    "C107_answer",
    "C107_v2_never",
    "C107_refuted"
   ],
   "note": "The converse of C98 and C99, with the same specification of messages (SpecConform.v). Levels 0 to 2 conform exactly with UNICODE and without VERSION; levels 3 to 5 only by chance (C107_answer, C107_v2_never; C107_refuted)."
  },
  {
   "property": "C108",
   "status": "proved",
   "theorems": [
    "C108_same",
    "C108_linear",
    "C108_mic",
    "C108_calls",
    "C108_twice_refuted"
   ],
   "note": "Effort.v writes the encoders again with a counter and C108_same shows them equal; the units are listed there. The bounds hold whether the message is written or a field is too long. Refuted: two units a byte. Not counted: log messages, the clones of the client; growing a vector is taken as amortised."
  },
  {
   "property": "C109",
   "status": "proved",
   "theorems": [
    "C109_answers_exactly",
    "C109_small_challenges",
    "C109_size",
    "C109_answers_refuted"
   ],
   "note": "From received bytes to the reply: C48/C53 say what is decoded, C109 when the reply to it is computed and how long it is. Refuted: a challenge of 65556 bytes, accepted, makes a client at levels 3 to 5 panic in send_authenticate, because the NTLMv2 response is 28 bytes longer than the list it copies."
  },
  {
   "property": "C110",
   "status": "proved",
   "theorems": [
    "C110_same",
    "C110_offer",
    "C110_linear",
    "C110_bounded"
   ],
   "note": "Labour.v writes the client's calls and the crypto functions again with the counter of Effort.v, C110_same shows them equal for every client and history. Counted besides the encoders: clones of names and AV pairs, hashing, DES and RC4, the search for the timestamp. Not counted: Client::new, the text dbg! prints, the OS, freeing memory."
  },
  {
   "property": "C111",
   "status": "proved",
   "theorems": [
    "C111_makeable",
    "C111_received",
    "C111_received_refuted",
    "C111_answers_exactly",
    "C111_named_refuted"
   ],
   "note": "Exactly what public calls can make, as an invariant and with a sequence of calls for every such challenge; what of the received challenges this leaves out; exactly when a client answers. That every received challenge can be handed over, and that the list alone decides, are refuted."
  },
  {
   "property": "C112",
   "status": "proved",
   "theorems": [
    "C112_accepted",
    "C112_logon",
    "C112_no_replay",
    "C112_target_not_bound"
   ],
   "note": "Server written from MS-NLMP in SpecLmv2.v; the session key such a server has is the subject of C30. Replay is excluded up to a collision of HMAC-MD5, which the theorem names."
  },
  {
   "property": "C113",
   "status": "proved",
   "theorems": [
    "C113_same",
    "C113_linear",
    "C113_upper",
    "C113_upper_refuted",
    "C113_real",
    "C113_whole"
   ],
   "note": "Cost model in Creation.v, in the units of C108 and C110; it returns what the constructors return without any hypothesis. The table of C113_upper is that of Unicode 14 (Upper.v)."
  },
  {
   "property": "C114",
   "status": "proved",
   "theorems": [
    "C114_items",
    "C114_order",
    "C114_key"
   ],
   "note": "Model in Unused.v. The Section variables there are discharged: every theorem quantifies over the equality and the flag."
  },
  {
   "property": "C115",
   "status": "proved",
   "theorems": [
    "C115_answer",
    "C115_offer",
    "C115_creation",
    "C115_creation_refuted"
   ],
   "note": "Work in the units of C108, C110 and C113, where a call of a primitive costs its bytes. The time a primitive or the machine takes (tables of DES and RC4, caches) is not modelled, so this is no claim of constant time on hardware. C115_creation_refuted shows that the length of the password does show in creation."
  },
  {
   "property": "C116",
   "status": "proved",
   "theorems": [
    "C116_flags",
    "C116_buffers",
    "C116_whole"
   ],
   "note": "Model in Sinks.v, of the hand-written Debug implementations; the calls that write!(f, \"{:02x}\") makes are those of Formatter::pad_integral. The derived implementations only call the builders of the standard library, whose calls are not modelled."
  },
  {
   "property": "C117",
   "status": "proved",
   "theorems": [
    "C117_v2",
    "C117_v1"
   ],
   "note": "Holds of any primitives with outputs of the right lengths, so of no use of them in particular; that the listed places do depend on the password is shown in the example, with primitives that mix their keys in. That the NT response is the same for all passwords is the finding of C28."
  },
  {
   "property": "C118",
   "status": "proved",
   "theorems": [
    "C118_words",
    "C118_messages",
    "C118_offers",
    "C118_replies",
    "C118_replies_refuted",
    "C118_challenges"
   ],
   "note": "About source that no build contains (see C14), like C114; Strict.v has the decoders with the checks in force. That challenges made with the setters decode is stated for little-endian hosts, as in C17. The false part is refuted by C118_replies_refuted."
  },
  {
   "property": "C119",
   "status": "proved",
   "theorems": [
    "C119_queries",
    "C119_unanswered",
    "C119_hidden"
   ],
   "note": "The key of the MIC is listed with all messages longer than 16 bytes, not only the one that is authenticated. The consequences are about HMAC-MD5 as an arbitrary function (a random oracle argument without the probabilities); it says nothing about attacks on HMAC-MD5 itself or on weak passwords."
  },
  {
   "property": "C120",
   "status": "proved",
   "theorems": [
    "C120_no_forgery",
    "C120_odds",
    "C120_relay",
    "C120_key"
   ],
   "note": "A random oracle argument with counted worlds in place of probabilities: HMAC-MD5 is an arbitrary function, and nothing is said about attacks on it, on weak passwords or on NTLMv1 responses. The server of the statement takes no NTLMv1 response. Whoever guesses the password computes the key and so is in the second exception."
  },
  {
   "property": "C121",
   "status": "proved",
   "theorems": [
    "C121_session_key",
    "C121_session_key_old"
   ],
   "note": "HMAC-MD5 and RC4 are arbitrary functions here, as in C119 and C120: nothing is said about attacks on them."
  },
  {
   "property": "C122",
   "status": "proved",
   "theorems": [
    "C122_repeated_refuted",
    "C122_fresh_old",
    "C122_fresh"
   ],
   "note": "The first part is a finding: C122_repeated_refuted. MS-NLMP 3.4.5.1 is worse there, it encrypts with the session base key itself."
  },
  {
   "property": "C123",
   "status": "proved",
   "theorems": [
    "C123_messages",
    "C123_structures",
    "C123_bytes",
    "C123_authenticate",
    "C123_authenticate_refuted"
   ],
   "note": "The model of == (Equal.v) is what derive(PartialEq) is documented to make; elsewhere the model uses equality of values, which C123 justifies."
  },
  {
   "property": "C124",
   "status": "proved",
   "theorems": [
    "C124_queries",
    "C124_unanswered"
   ],
   "note": "DES is an arbitrary family of permutations (real_prims' DES is one, C68); nothing is said about searching its keys, the third of which has 16 unknown bits only (C95)."
  },
  {
   "property": "C125",
   "status": "proved",
   "theorems": [
    "C125_no_forgery",
    "C125_odds",
    "C125_relay",
    "C125_hash"
   ],
   "note": "A random permutation argument with counted worlds in place of probabilities: DES is an arbitrary family of permutations, and nothing is said about searching its keys: whoever finds a key by trying computes DES under it and so moves towards the second exception."
  },
  {
   "property": "C126",
   "status": "proved",
   "theorems": [
    "C126_nobody",
    "C126_odds"
   ],
   "note": "As C120 and C125: no probabilities, and nothing about searching for keys or passwords."
  },
  {
   "property": "C127",
   "status": "proved",
   "theorems": [
    "C127_open",
    "C127_nobody",
    "C127_nobody_old",
    "C127_work_out"
   ],
   "note": "As C120 and C121: worlds are counted, there are no probabilities."
  },
  {
   "property": "C128",
   "status": "proved",
   "theorems": [
    "C128_uses"
   ],
   "note": "The list is an upper bound: no point outside it is used. Of HMAC-MD5 it has whole families (any message of more than 16 bytes under a session key, any 8 bytes after the server challenge at levels 0 to 2), see SpecQueries.v."
  },
  {
   "property": "C129",
   "status": "proved",
   "theorems": [
    "C129_free",
    "C129_nobody",
    "C129_genuine"
   ],
   "note": "As C127: worlds are counted, there are no probabilities. C97 is the counterpart for two handshakes with one key, with collisions of HMAC-MD5 named."
  },
  {
   "property": "C130",
   "status": "proved",
   "theorems": [
    "C130_logon",
    "C130_key",
    "C130_arrives_refuted"
   ],
   "note": "C130_arrives_refuted refutes the claim with a witness; C130_logon is the general statement, C130_key says what the session key is then. The MIC that the client sends would not help a server that checks it: by C29 it is not over the message that was sent."
  },
  {
   "property": "C131",
   "status": "proved",
   "theorems": [
    "C131_relay",
    "C131_bindings",
    "C131_meant_refuted"
   ],
   "note": "C131_meant_refuted refutes the claim with two servers; C131_relay is the general statement. The server is that of C112: it looks at the responses, not at the MIC (which by C29 it could not check) nor at target names."
  },
  {
   "property": "C132",
   "status": "proved",
   "theorems": [
    "C132_fits",
    "C132_others",
    "C132_key",
    "C132_hidden_refuted"
   ],
   "note": "The refutation is of the secrecy of the password against guessing; C117 says where in a reply the password goes, C119 to C127 what cannot be learned without guessing."
  },
  {
   "property": "C133",
   "status": "proved",
   "theorems": [
    "C133_table",
    "C133_drawn",
    "C133_beforehand_refuted"
   ],
   "note": "C133_beforehand_refuted is the claim with its witness, C133_table the general statement for the replies without a client challenge, C133_drawn the claim, with a bound, for all others. C64 says where the client challenge is in a reply."
  },
  {
   "property": "C134",
   "status": "proved",
   "theorems": [
    "C134_drawn",
    "C134_repeated",
    "C134_old",
    "C134_new",
    "C134_sessions_refuted"
   ],
   "note": "C134_sessions_refuted is the claim with its witness, C134_repeated the general statement for the sessions that share a key, C134_drawn, C134_old and C134_new the claim for all others. C122 is about the keys that encrypt session keys."
  },
  {
   "property": "C135",
   "status": "proved",
   "theorems": [
    "C135_whole",
    "C135_cut",
    "C135_once",
    "C135_whole_refuted",
    "C135_again_refuted"
   ],
   "note": "C135_whole_refuted and C135_again_refuted are the claims with their witnesses, C135_cut and C135_once the general statements, C135_whole the first claim for messages of less than 4 GiB. C51 says which handles are passed on."
  },
  {
   "property": "C136",
   "status": "proved",
   "theorems": [
    "C136_halves",
    "C136_search",
    "C136_found",
    "C136_blind",
    "C136_whole_refuted"
   ],
   "note": "C136_whole_refuted is the claim with its witness, C136_halves, C136_search, C136_found and C136_blind the general statements. C95 is about short passwords, C34 about the LM hash."
  },
  {
   "property": "C137",
   "status": "proved",
   "theorems": [
    "C137_same",
    "C137_grafted",
    "C137_back",
    "C137_asked_refuted"
   ],
   "note": "C137_asked_refuted is the claim with its witness, C137_same, C137_grafted and C137_back the general statements. C130 is about replies that are not changed on the way; C109 says that such a client answers whatever it is asked."
  }
 ]
}
