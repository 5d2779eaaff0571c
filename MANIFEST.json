{
 "claims": [
  {
   "property": "C01",
   "status": "proved",
   "theorems": [
    "C01_no_token_without_authentication"
   ],
   "note": "For every data layer, JWT library and set of handlers."
  },
  {
   "property": "C02",
   "status": "proved",
   "theorems": [
    "C02_only_post"
   ],
   "note": ""
  },
  {
   "property": "C03",
   "status": "proved",
   "theorems": [
    "C03_one_answer"
   ],
   "note": ""
  },
  {
   "property": "C04",
   "status": "proved",
   "theorems": [
    "C04_grant_type_allowed_for_secrets",
    "C04_assertions_refuted"
   ],
   "note": "Proved for secrets; the assertion path violates it (refuted theorem): CanUseGrantType is never asked there."
  },
  {
   "property": "C05",
   "status": "proved",
   "theorems": [
    "C05_unsupported",
    "C05_empty",
    "C05_last_registration",
    "C05_registered_handler_runs",
    "C05_success_is_reported"
   ],
   "note": ""
  },
  {
   "property": "C06",
   "status": "proved",
   "theorems": [
    "C06_header_only",
    "C06_not_from_query",
    "C06_header_wins"
   ],
   "note": ""
  },
  {
   "property": "C07",
   "status": "proved",
   "theorems": [
    "C07_code_exchange_sound",
    "C07_code_exchange_complete"
   ],
   "note": ""
  },
  {
   "property": "C08",
   "status": "proved",
   "theorems": [
    "C08_refused_exchange_changes_nothing"
   ],
   "note": ""
  },
  {
   "property": "C09",
   "status": "proved",
   "theorems": [
    "C09_at_most_once",
    "C09_no_replay",
    "C09_bundled_store"
   ],
   "note": "For every data layer with the laws of code_store; the bundled store is an instance."
  },
  {
   "property": "C10",
   "status": "proved",
   "theorems": [
    "C10_at_most_once",
    "C10_no_replay",
    "C10_strict_store",
    "C10_refuted"
   ],
   "note": "Proved for every data layer whose DisableSession refuses a disabled session; refuted for the bundled store."
  },
  {
   "property": "C11",
   "status": "proved",
   "theorems": [
    "C11_refuted",
    "C11_no_code_lost_without_token",
    "C11_bundled_store"
   ],
   "note": "Refuted (token first, then disabling); the converse order proved for every crash point of every entry point."
  },
  {
   "property": "C12",
   "status": "proved",
   "theorems": [
    "C12_pkce_exact",
    "C12_pkce_other_methods",
    "C12_hash_constants"
   ],
   "note": ""
  },
  {
   "property": "C13",
   "status": "proved",
   "theorems": [
    "C13_refuted",
    "C13_s256_refuted"
   ],
   "note": "The property is violated by the code; refuted for every session, under both methods."
  },
  {
   "property": "C14",
   "status": "proved",
   "theorems": [
    "C14_no_unsafe_byte",
    "C14_length",
    "C14_lossless",
    "C14_is_rfc4648",
    "C14_s256_length"
   ],
   "note": ""
  },
  {
   "property": "C15",
   "status": "proved",
   "theorems": [
    "C15_refresh_sound",
    "C15_refresh_complete"
   ],
   "note": ""
  },
  {
   "property": "C16",
   "status": "proved",
   "theorems": [
    "C16_refused_refresh_changes_nothing"
   ],
   "note": ""
  },
  {
   "property": "C17",
   "status": "proved",
   "theorems": [
    "C17_direct_grants_sound",
    "C17_direct_grants_guarded",
    "C17_password_complete",
    "C17_client_credentials_complete"
   ],
   "note": ""
  },
  {
   "property": "C18",
   "status": "proved",
   "theorems": [
    "C18_client_assertion",
    "C18_jwt_grant"
   ],
   "note": ""
  },
  {
   "property": "C19",
   "status": "proved",
   "theorems": [
    "C19_refuted",
    "C19_every_malformed_assertion_crashes"
   ],
   "note": "The property is violated; the crash is characterised exactly."
  },
  {
   "property": "C20",
   "status": "proved",
   "theorems": [
    "C20_replay_refused"
   ],
   "note": ""
  },
  {
   "property": "C21",
   "status": "proved",
   "theorems": [
    "C21_failures_are_answered"
   ],
   "note": ""
  },
  {
   "property": "C22",
   "status": "proved",
   "theorems": [
    "C22_id_token_bound"
   ],
   "note": ""
  },
  {
   "property": "C23",
   "status": "proved",
   "theorems": [
    "C23_hashes_when_completing",
    "C23_hashes_without_asking",
    "C23_encoding_refuted"
   ],
   "note": "Value, coverage and presence of the hashes proved; the encoding is padded standard base64 instead of base64url (refuted for every RS256/RS512 client)."
  },
  {
   "property": "C24",
   "status": "proved",
   "theorems": [
    "C24_served_only_for_live_tokens",
    "C24_headers_cannot_be_forged",
    "C24_live_tokens_are_served"
   ],
   "note": ""
  },
  {
   "property": "C25",
   "status": "proved",
   "theorems": [
    "C25_refusals",
    "C25_refused_once",
    "C25_only_reads"
   ],
   "note": ""
  },
  {
   "property": "C26",
   "status": "proved",
   "theorems": [
    "C26_scopes_enforced",
    "C26_sufficient_scopes_are_served",
    "C26_insufficient_scope_is_403"
   ],
   "note": ""
  },
  {
   "property": "C27",
   "status": "proved",
   "theorems": [
    "C27_lookup_uses_presented_token",
    "C27_form_tokens_refuted"
   ],
   "note": ""
  },
  {
   "property": "C28",
   "status": "proved",
   "theorems": [
    "C28_panics_exactly",
    "C28_never_crashes_refuted"
   ],
   "note": ""
  },
  {
   "property": "C29",
   "status": "proved",
   "theorems": [
    "C29_access_expiry",
    "C29_refresh_expiry"
   ],
   "note": ""
  },
  {
   "property": "C30",
   "status": "proved",
   "theorems": [
    "C30_redirects_only_to_the_approved_uri",
    "C30_approval_comes_first",
    "C30_otherwise_only_an_error_screen",
    "C30_no_error_screen_after_approval",
    "C30_whole_runs"
   ],
   "note": ""
  },
  {
   "property": "C31",
   "status": "proved",
   "theorems": [
    "C31_state_is_echoed"
   ],
   "note": ""
  },
  {
   "property": "C32",
   "status": "proved",
   "theorems": [
    "C32_screens_show_validated_requests",
    "C32_issued_for_validated_requests"
   ],
   "note": ""
  },
  {
   "property": "C33",
   "status": "proved",
   "theorems": [
    "C33_issued_only_for_recorded_consent",
    "C33_consent_is_never_recorded"
   ],
   "note": ""
  },
  {
   "property": "C34",
   "status": "proved",
   "theorems": [
    "C34_prompt_none_is_silent",
    "C34_repeated_none_refuted",
    "C34_unknown_policy_refuted"
   ],
   "note": "Proved when prompt is exactly the word none and the policy is a declared one; refuted for \"none none\" and for undeclared policy values."
  },
  {
   "property": "C35",
   "status": "proved",
   "theorems": [
    "C35_login_first",
    "C35_id_token_hint_refuted"
   ],
   "note": "Proved: nobody is asked for consent or issued anything before login; refuted for the id_token_hint none-prompt policy, which never asks whether there is a login session."
  },
  {
   "property": "C36",
   "status": "proved",
   "theorems": [
    "C36_prompt_login"
   ],
   "note": ""
  },
  {
   "property": "C37",
   "status": "proved",
   "theorems": [
    "C37_max_age",
    "C37_prompt_none_refuted",
    "C37_zero_refuted"
   ],
   "note": "Proved outside prompt=none; refuted for prompt=none, where max_age is never looked at, and for max_age=0."
  },
  {
   "property": "C38",
   "status": "proved",
   "theorems": [
    "C38_screens",
    "C38_never_issued_silently",
    "C38_other_words_are_kept"
   ],
   "note": ""
  },
  {
   "property": "C39",
   "status": "proved",
   "theorems": [
    "C39_answers",
    "C39_screens"
   ],
   "note": ""
  },
  {
   "property": "C40",
   "status": "proved",
   "theorems": [
    "C40_judge_exact",
    "C40_order_irrelevant"
   ],
   "note": ""
  },
  {
   "property": "C41",
   "status": "proved",
   "theorems": [
    "C41_completed_runs",
    "C41_session_stored",
    "C41_answer",
    "C41_refused_only_after_a_failure"
   ],
   "note": ""
  },
  {
   "property": "C42",
   "status": "proved",
   "theorems": [
    "C42_hybrid",
    "C42_implicit_refuted"
   ],
   "note": "Proved for hybrid; refuted for implicit, for every answer: the parameter is called rexpires_in."
  },
  {
   "property": "C43",
   "status": "proved",
   "theorems": [
    "C43_cancel",
    "C43_cancel_touches_no_data",
    "C43_consent_recorded_first",
    "C43_uncompleted"
   ],
   "note": ""
  },
  {
   "property": "C44",
   "status": "proved",
   "theorems": [
    "C44_query",
    "C44_fragment",
    "C44_trailing_question_mark_refuted",
    "C44_uri_with_fragment_refuted"
   ],
   "note": "Proved for every URI that has no fragment and no trailing question mark; refuted for every URI ending in \"?\" and for every URI with a fragment."
  },
  {
   "property": "C45",
   "status": "proved",
   "theorems": [
    "C45_handle_request",
    "C45_complete_request",
    "C45_cancel_request",
    "C45_action_refuted"
   ],
   "note": "Proved at the level of the two completing handlers, for every value; refuted for the action attribute (a redirect URI with a double quote)."
  },
  {
   "property": "C46",
   "status": "proved",
   "theorems": [
    "C46_decodes",
    "C46_round_trip",
    "C46_encoding_determines_the_request",
    "C46_invalid_utf8_refuted"
   ],
   "note": "Round trip exactly when every string is UTF-8; what comes back otherwise is characterised."
  },
  {
   "property": "C47",
   "status": "proved",
   "theorems": [
    "C47_words",
    "C47_include",
    "C47_include_all",
    "C47_remove",
    "C47_same",
    "C47_sort",
    "C47_fixed_words"
   ],
   "note": ""
  },
  {
   "property": "C48",
   "status": "proved",
   "theorems": [
    "C48_prompt_exact",
    "C48_prompt_include"
   ],
   "note": ""
  },
  {
   "property": "C49",
   "status": "proved",
   "theorems": [
    "C49_names_are_distinct",
    "C49_standard_names",
    "C49_standard_statuses",
    "C49_status",
    "C49_json_is_readable",
    "C49_query_is_readable",
    "C49_header_determines_the_error"
   ],
   "note": "Names, statuses, JSON, query and WWW-Authenticate renderings."
  },
  {
   "property": "C50",
   "status": "proved",
   "theorems": [
    "C50_credentials",
    "C50_form_credentials",
    "C50_token_endpoint",
    "C50_escaped_secret_refuted"
   ],
   "note": "The pair is read back iff both strings consist of unreserved bytes; refuted otherwise."
  },
  {
   "property": "C51",
   "status": "proved",
   "theorems": [
    "C51_published",
    "C51_bad_key",
    "C51_served_document_is_fixed"
   ],
   "note": "The key loader and the JWK renderer are oracles."
  },
  {
   "property": "C52",
   "status": "proved",
   "theorems": [
    "C52_log_sources",
    "C52_secret_independence",
    "C52_passwords_refuted"
   ],
   "note": "Whitelist of log sources and independence of the secret proved; user passwords are logged (refuted theorem)."
  },
  {
   "property": "C53",
   "status": "proved",
   "theorems": [
    "C53_traced",
    "C53_bundled_store",
    "C53_bundled_store_consent"
   ],
   "note": "Any interleaving of all entry points, every data layer with the laws of linked_store; the bundled store is an instance."
  },
  {
   "property": "C54",
   "status": "proved",
   "theorems": [
    "C54_refuted"
   ],
   "note": "The property is violated; see also C07_code_exchange_complete."
  },
  {
   "property": "C55",
   "status": "proved",
   "theorems": [
    "C55_filter",
    "C55_message_is_kept",
    "C55_labels_refuted",
    "C55_colours_tell_levels_apart"
   ],
   "note": "Filtering proved; labels refuted (error and fatal print DEBUG)."
  },
  {
   "property": "C56",
   "status": "proved",
   "theorems": [
    "C56_handle_panics",
    "C56_nil_client_refuted"
   ],
   "note": "Exact panic conditions of the authorization endpoint; refuted that a data-layer error never crashes it."
  },
  {
   "property": "C57",
   "status": "proved",
   "theorems": [
    "C57_none_policies"
   ],
   "note": ""
  },
  {
   "property": "C58",
   "status": "proved",
   "theorems": [
    "C58_token_endpoint",
    "C58_no_markup"
   ],
   "note": "The documents are read with the JSON reader of JsonParse.v."
  },
  {
   "property": "C59",
   "status": "proved",
   "theorems": [
    "C59_recorded_truthfully",
    "C59_refused_leave_no_record_refuted"
   ],
   "note": "Truth of the records proved; refuted that a refused assertion leaves no record."
  },
  {
   "property": "C60",
   "status": "proved",
   "theorems": [
    "C60_client_assertion_refuted",
    "C60_jwt_grant_refuted"
   ],
   "note": "The property is violated in both places."
  },
  {
   "property": "C61",
   "status": "proved",
   "theorems": [
    "C61_standard_names",
    "C61_jwt_bearer_refuted"
   ],
   "note": "Proved for the four grants of RFC 6749; refuted for RFC 7523."
  },
  {
   "property": "C62",
   "status": "proved",
   "theorems": [
    "C62_challenge_ignored_refuted",
    "C62_verifier_ignored_refuted",
    "C62_whole_flow_refuted"
   ],
   "note": "The property is violated; absence of influence proved for every request."
  },
  {
   "property": "C63",
   "status": "proved",
   "theorems": [
    "C63_token_requests",
    "C63_authorization_requests",
    "C63_body_wins_at_the_token_endpoint",
    "C63_body_wins_at_the_authorization_endpoint",
    "C63_duplicates_refuted"
   ],
   "note": "Proved; refuted for repeated parameters."
  },
  {
   "property": "C64",
   "status": "proved",
   "theorems": [
    "C64_completes_what_was_shown",
    "C64_cancels_what_was_shown",
    "C64_never_shown_refuted"
   ],
   "note": "Refuted for requests that were never shown."
  },
  {
   "property": "C65",
   "status": "proved",
   "theorems": [
    "C65_errors_have_reasons",
    "C65_error_screens_have_reasons",
    "C65_good_requests_are_served"
   ],
   "note": "Soundness of every error and completeness for requests in order."
  },
  {
   "property": "C66",
   "status": "proved",
   "theorems": [
    "C66_one_outcome",
    "C66_exactly_one",
    "C66_result",
    "C66_failed_login_screen_refuted",
    "C66_failed_continue_refuted"
   ],
   "note": "Refuted: a failed login screen or a failed Continue leaves everybody without an answer."
  },
  {
   "property": "C67",
   "status": "proved",
   "theorems": [
    "C67_public_keys",
    "C67_private_keys",
    "C67_key_texts_are_read",
    "C67_keys_were_in_the_text",
    "C67_any_bytes",
    "C67_no_mixup",
    "C67_files"
   ],
   "note": "Over the PEM and x509 libraries as oracles."
  },
  {
   "property": "C68",
   "status": "proved",
   "theorems": [
    "C68_published_keys_are_found",
    "C68_crash",
    "C68_crash_refuted"
   ],
   "note": "For every jwk library that reads what it writes; refuted that the loader never crashes."
  },
  {
   "property": "C69",
   "status": "proved",
   "theorems": [
    "C69_one_line",
    "C69_lines_determine_what_is_logged",
    "C69_lines_read_back",
    "C69_token_endpoint",
    "C69_path_refuted"
   ],
   "note": "Refuted for the request path, which the authorization endpoint and the resource protector print as it is."
  },
  {
   "property": "C70",
   "status": "proved",
   "theorems": [
    "C70_bearer_challenge",
    "C70_resource_protector",
    "C70_token_endpoint",
    "C70_location",
    "C70_authorization_endpoint"
   ],
   "note": ""
  },
  {
   "property": "C71",
   "status": "proved",
   "theorems": [
    "C71_served_requests_were_granted",
    "C71_bundled_store"
   ],
   "note": "Any interleaving of all entry points, every data layer with the laws of linked_store and token_store; the bundled store is an instance."
  },
  {
   "property": "C72",
   "status": "proved",
   "theorems": [
    "C72_served_scopes_were_agreed",
    "C72_bundled_store"
   ],
   "note": "As C71, with the law scope_store."
  },
  {
   "property": "C73",
   "status": "proved",
   "theorems": [
    "C73_one_agreement_one_scope",
    "C73_scope_of_a_token_refuted"
   ],
   "note": "Refuted over the bundled store; proved as long as user and client agree on one scope only."
  },
  {
   "property": "C74",
   "status": "proved",
   "theorems": [
    "C74_clients_are_isolated",
    "C74_bundled_store"
   ],
   "note": "Any interleaving of all entry points, every data layer with the laws of linked_store and separate_store; the bundled store is an instance."
  },
  {
   "property": "C75",
   "status": "proved",
   "theorems": [
    "C75_unknown_client_or_wrong_secret",
    "C75_codes_of_others",
    "C75_refresh_tokens_of_others",
    "C75_expired_refresh_tokens_refuted"
   ],
   "note": "Proved for clients, codes and live refresh tokens; refuted for expired refresh tokens (C75_expired_refresh_tokens_refuted). Timing and logs are not part of the answer."
  },
  {
   "property": "C76",
   "status": "proved",
   "theorems": [
    "C76_given_out_amid_others",
    "C76_sent_amid_others",
    "C76_silent_amid_others",
    "C76_silent_tokens_are_on_record",
    "C76_given_out_tokens_are_on_record",
    "C76_sent_tokens_are_on_record",
    "C76_tokens_on_record_keep_working",
    "C76_bundled_store"
   ],
   "note": "Over every data layer with the laws of linked_store, separate_store and answering_store; the bundled store is an instance. Expiry is as the protector computes it, in 64 bits. What HandleRequest gives out without asking is covered (PropsSilent.v)."
  },
  {
   "property": "C77",
   "status": "proved",
   "theorems": [
    "C77_sent_codes_amid_others",
    "C77_silent_codes_amid_others",
    "C77_silent_codes_are_on_record",
    "C77_silent_codes_can_be_redeemed",
    "C77_sent_codes_are_on_record",
    "C77_codes_on_record_can_be_redeemed",
    "C77_bundled_store"
   ],
   "note": "Over every data layer with the laws of linked_store, separate_store and answering_store; the bundled store is an instance. Assumes that signing works for the client if the scope has openid. What HandleRequest gives out without asking is covered (PropsSilent.v)."
  },
  {
   "property": "C78",
   "status": "proved",
   "theorems": [
    "C78_token_work",
    "C78_authorization_work",
    "C78_resource_work",
    "C78_service_work"
   ],
   "note": "Bundled grant handlers only (a custom handler can do anything)."
  },
  {
   "property": "C79",
   "status": "proved",
   "theorems": [
    "C79_id_tokens_agree",
    "C79_bundled_store"
   ],
   "note": "Over every data layer with the laws of linked_store and steady_store (stored sessions keep nonce and time, subjects and the issuer do not change); the bundled store is an instance."
  },
  {
   "property": "C80",
   "status": "proved",
   "theorems": [
    "C80_refresh_tokens_on_record_keep_working",
    "C80_bundled_store"
   ],
   "note": "Over any data layer with the promises of linked_store, separate_store, answering_store and refreshing_store, with instance for the bundled store. The bundled store may find any token with the same refresh token; the expiry asked about is that of the one found."
  },
  {
   "property": "C81",
   "status": "proved",
   "theorems": [
    "C81_withdrawn_for_later_requests",
    "C81_only_agreeing_again_revives",
    "C81_bundled_store",
    "C81_requests_under_way_refuted"
   ],
   "note": "Over any data layer with the promises of revoking_store; instance for the bundled store, where withdrawing is deleting (it has no other way). C81_requests_under_way_refuted records that a request that was under way may still get its token."
  },
  {
   "property": "C82",
   "status": "proved",
   "theorems": [
    "C82_forms_are_read_as_written",
    "C82_parameters_arrive",
    "C82_escaping_does_not_matter",
    "C82_multipart_parameters_arrive",
    "C82_both_kinds_of_body",
    "C82_other_bodies_count_for_nothing",
    "C82_content_type_decides",
    "C82_what_was_sent_comes_back"
   ],
   "note": "net/http and net/url are modelled as of Go 1.17+; multipart bodies are not modelled."
  },
  {
   "property": "C83",
   "status": "proved",
   "theorems": [
    "C83_signed_tokens_can_be_read",
    "C83_signature",
    "C83_signed_tokens_verify",
    "C83_code_exchange"
   ],
   "note": "RSA, ECDSA and EdDSA are oracles; HMAC, SHA-2, base64 and JSON are computed in the model."
  },
  {
   "property": "C84",
   "status": "proved",
   "theorems": [
    "C84_shared_secrets",
    "C84_rsa_clients_refuted"
   ],
   "note": "C84_rsa_clients_refuted: universal over requests and histories."
  },
  {
   "property": "C85",
   "status": "proved",
   "theorems": [
    "C85_client_assertion",
    "C85_jwt_grant",
    "C85_no_confusion",
    "C85_three_parts",
    "C85_unknown_algorithms",
    "C85_expiry_refuted"
   ],
   "note": "C85_expiry_refuted: an assertion with exp 0 is accepted at the end of time."
  },
  {
   "property": "C86",
   "status": "proved",
   "theorems": [
    "C86_header",
    "C86_claims",
    "C86_requests",
    "C86_one_meaning",
    "C86_written",
    "C86_whole_numbers_are_kept",
    "C86_larger_numbers_refuted",
    "C86_too_deep_is_refused",
    "C86_nesting_limit",
    "C86_every_text_is_read_refuted"
   ],
   "note": "encoding/json is library code that goidc relies on: the readers are its model; goidc's part is what is handed to them. Go's limit of 10000 nested arrays and objects is part of the specification (C86_nesting_limit)."
  },
  {
   "property": "C87",
   "status": "proved",
   "theorems": [
    "C87_errors_have_reasons",
    "C87_served_without_reason",
    "C87_served_iff_no_reason",
    "C87_claims_are_a_map",
    "C87_client_assertion_errors_refuted"
   ],
   "note": "When several faults coincide any of them may be named. RFC 7521 demands invalid_client for every failed client assertion; an expired one is answered with invalid_grant (C87_client_assertion_errors_refuted)."
  },
  {
   "property": "C88",
   "status": "proved",
   "theorems": [
    "C88_code_flow"
   ],
   "note": "Hypotheses: nobody else acts for the client meanwhile, the code is not generated twice, the redirect URI has no query, fragment or double quote, the client can sign if an ID token is due. For a custom redirect URI with a query see C44."
  },
  {
   "property": "C89",
   "status": "proved",
   "theorems": [
    "C89_sha2",
    "C89_code_challenges",
    "C89_exchanged",
    "C89_token_hashes",
    "C89_macs",
    "C89_shared_secrets"
   ],
   "note": "That Go's crypto packages implement the standard is trusted; what is proved is that the model's functions do. A missing padding of base64 and the encodings are in C12/C23."
  },
  {
   "property": "C90",
   "status": "proved",
   "theorems": [
    "C90_decodes",
    "C90_last_state_wins",
    "C90_garbage",
    "C90_errors_are_reported_refuted"
   ],
   "note": "C90_errors_are_reported_refuted is a finding about the API."
  },
  {
   "property": "C91",
   "status": "proved",
   "theorems": [
    "C91_resource",
    "C91_resource_scopes",
    "C91_dropped_token",
    "C91_token_works",
    "C91_since",
    "C91_users",
    "C91_user_numbers",
    "C91_clients",
    "C91_password",
    "C91_client_credentials",
    "C91_codes",
    "C91_authorizations",
    "C91_access_tokens",
    "C91_refresh_tokens",
    "C91_code",
    "C91_code_once",
    "C91_refresh_only",
    "C91_refresh",
    "C91_jwt",
    "C91_always_asks",
    "C91_assertions",
    "C91_token_strings_return_refuted"
   ],
   "note": "The maps of the store are updated in place in Go: a client fetched before AllowToUseGrantType sees the addition, here it is fetched again. C91_token_strings_return_refuted is a finding about the bundled store."
  },
  {
   "property": "C92",
   "status": "proved",
   "theorems": [
    "C92_errors_say_why",
    "C92_first_fault_is_reported",
    "C92_one_first_fault",
    "C92_no_fault",
    "C92_some_fault",
    "C92_complete",
    "C92_cancel"
   ],
   "note": "The numbers in descriptions (greater than / less than) wrap around like Go's int (itoa (add64 max 1))."
  },
  {
   "property": "C93",
   "status": "proved",
   "theorems": [
    "C93_token_breakdowns_reported",
    "C93_token_reports_true",
    "C93_token_answers_are_logged",
    "C93_protector_breakdowns_reported",
    "C93_protector_scopes_breakdowns_reported",
    "C93_protector_reports_true",
    "C93_authorization_callbacks_reported",
    "C93_method_names_refuted",
    "C93_protector_nothing_refuted",
    "C93_authorization_data_refuted"
   ],
   "note": "Levels, kinds and the method attribute of log lines are modelled; message texts are not."
  },
  {
   "property": "C94",
   "status": "proved",
   "theorems": [
    "C94_registered_uri",
    "C94_absolute",
    "C94_nowhere_else",
    "C94_requests",
    "C94_body",
    "C94_parameters",
    "C94_requests_do_not_panic",
    "C94_completing_does_not_panic",
    "C94_cancelling_does_not_panic",
    "C94_malformed_uri_panics_refuted",
    "C94_relative_uri_refuted"
   ],
   "note": "url.Parse and http.Redirect are modelled as of Go 1.19. Hosts of the grammar have escapes of non-ASCII bytes only and no zones (url.Parse refuses the former)."
  },
  {
   "property": "C95",
   "status": "proved",
   "theorems": [
    "C95_one_reading",
    "C95_bearer",
    "C95_protector",
    "C95_token_endpoint",
    "C95_realm_refuted",
    "C95_backslash_refuted",
    "C95_control_characters_refuted",
    "C95_description_refuted"
   ],
   "note": "Bearer and Basic challenges read back exactly; the unescaped realm of the token endpoint, control characters and the double quotes in the scope description are refuted"
  },
  {
   "property": "C96",
   "status": "proved",
   "theorems": [
    "C96_approved",
    "C96_not_asked",
    "C96_granted",
    "C96_renewed",
    "C96_renewed_for_ever"
   ],
   "note": "C96_approved: CompleteRequest's answer; C96_not_asked: HandleRequest's; C96_renewed, C96_renewed_for_ever: renewals (the latter coinductive, under renewing_store, which the bundled store meets: bundled_renewing). The example plays approval, redemption and two renewals on the bundled store with a thief at work."
  }
 ]
}