{
 "claims": [
  {
   "property": "C01",
   "status": "proved",
   "theorems": [
    "C01_deny_overrides",
    "C01_check_policy_denies"
   ],
   "note": "Every interleaving of workers, dispatcher, caller, cancellation, cache swaps and cache refreshes; hypothesis: every policy version in force is deny-first (established by C15) and denies."
  },
  {
   "property": "C02",
   "status": "proved",
   "theorems": [
    "C02_success_only_with_allow",
    "C02_success_under_refresh",
    "C02_check_policy_accepts"
   ],
   "note": "Relative to the policy current at one instant of the call (no in-place refresh), plus a weaker statement under in-place refreshes."
  },
  {
   "property": "C03",
   "status": "proved",
   "theorems": [
    "C03_default_deny",
    "C03_no_roles"
   ],
   "note": "Uncancelled calls; all policy versions in force during the call have no applicable assertion."
  },
  {
   "property": "C04",
   "status": "proved",
   "theorems": [
    "C04_schedule_independent"
   ],
   "note": "Verdict class and role multiset agree for any two complete uncancelled executions on an unchanged policy whose effects are those NewAssertion produces."
  },
  {
   "property": "C05",
   "status": "proved",
   "theorems": [
    "C05_cancellation_fails_closed",
    "C05_precancelled"
   ],
   "note": "Cancellation at any point of any execution; and a context cancelled before the call never succeeds."
  },
  {
   "property": "C06",
   "status": "proved",
   "theorems": [
    "C06_no_panic",
    "C06_steps_bounded",
    "C06_steps_bounded_uniform",
    "C06_no_deadlock_no_leak"
   ],
   "note": "No panic, explicit step bound, every non-extendable execution is quiescent (deadlock and leak freedom)."
  },
  {
   "property": "C07",
   "status": "proved",
   "theorems": [
    "C07_single_snapshot"
   ],
   "note": "Swaps are arbitrary; in-place changes of the loaded cache by the expired hook are excluded (they are not atomic snapshots)."
  },
  {
   "property": "C08",
   "status": "proved",
   "theorems": [
    "C08_assertion_is_glob",
    "C08_assertion_effect",
    "C08_ascii_effect"
   ],
   "note": "Exact characterisation of the match condition by an inductive glob relation; Unicode tables above ASCII are universally quantified."
  },
  {
   "property": "C09",
   "status": "proved",
   "theorems": [
    "C09_new_assertion_fails_iff",
    "C09_pattern_compiles",
    "C09_literal_matches_itself_only",
    "C09_literal_resource_matches_itself_only"
   ],
   "note": "NewAssertion fails iff the resource has no ':'; every generated pattern stays in the modelled regexp fragment and compiles."
  },
  {
   "property": "C10",
   "status": "proved",
   "theorems": [
    "C10_request_case",
    "C10_assertion_case"
   ],
   "note": "Request case needs no assumption; resource-domain case assumes fold_consistent (a fact of the Unicode tables)."
  },
  {
   "property": "C11",
   "status": "partial",
   "theorems": [
    "C11_star_matches_partial",
    "C11_star_matches_everything_refuted"
   ],
   "note": "The headline is refuted by a newline witness; the exact condition (newline-free texts) is proved."
  },
  {
   "property": "C12",
   "status": "proved",
   "theorems": [
    "C12_caching_preserves_meaning"
   ],
   "note": "Stated for a whole Update over all domains; document roles/actions comma-free, roles disjoint between domains, caching finished before the documents expire; any schedule if no two policies conflict on a target, else race-free schedules."
  },
  {
   "property": "C13",
   "status": "partial",
   "theorems": [
    "C13_deny_survives_without_race_partial",
    "C13_deny_lost_in_race_refuted"
   ],
   "note": "The headline is refuted by an explicit interleaving; proved for every schedule whose Load/Store pairs on equal keys do not overlap."
  },
  {
   "property": "C14",
   "status": "partial",
   "theorems": [
    "C14_duplicates_are_equal_partial",
    "C14_nothing_dropped_partial",
    "C14_comma_collision_refuted"
   ],
   "note": "The headline is refuted by comma-containing fields (a deny vanishes); proved when role and action are comma-free."
  },
  {
   "property": "C15",
   "status": "proved",
   "theorems": [
    "C15_deny_first",
    "C15_deny_first_update"
   ],
   "note": "Any number of goroutines, any interleaving, any documents, entry expiry at any time, both for Update and for refreshes of the live cache."
  },
  {
   "property": "C16",
   "status": "partial",
   "theorems": [
    "C16_entries_expire_partial",
    "C16_expired_policy_never_expires_refuted"
   ],
   "note": "Proved for documents unexpired when the clock is read; refuted for the fallback path (expired document cached for ever)."
  },
  {
   "property": "C17",
   "status": "proved",
   "theorems": [
    "C17_update_all_or_nothing",
    "C17_any_failed_domain_fails_update"
   ],
   "note": "Any fetch outcomes, interleavings and cancellation; a failed domain always fails the update."
  },
  {
   "property": "C18",
   "status": "partial",
   "theorems": [
    "C18_disjoint_documents_do_not_interfere_partial",
    "C18_shared_role_loses_deny_refuted"
   ],
   "note": "Proved for role-disjoint documents against a solo run; refuted when two goroutines cache the same role (a deny is lost)."
  },
  {
   "property": "C19",
   "status": "partial",
   "theorems": [
    "C19_own_roles_only_affect_own_domain_partial",
    "C19_foreign_role_refuted"
   ],
   "note": "Proved for documents whose roles all start with their own domain prefix; refuted in general (prefixes are not checked)."
  },
  {
   "property": "C20",
   "status": "proved",
   "theorems": [
    "C20_resource_domain_and_role"
   ],
   "note": "Provenance of every applicable cached assertion after any successful Update."
  },
  {
   "property": "C21",
   "status": "proved",
   "theorems": [
    "C21_served_policies_verified",
    "C21_kept_policy_verified",
    "C21_kept_policy_newest"
   ],
   "note": "All interleavings of any number of Fetch/FetchWithRetry calls on one fetcher; the kept policy is exactly the newest valid download. Cryptography and JSON are parameters."
  },
  {
   "property": "C22",
   "status": "proved",
   "theorems": [
    "C22_verify_exact",
    "C22_verify_never_panics",
    "C22_expired_refused",
    "C22_unknown_key_refused",
    "C22_bad_signature_refused",
    "C22_bad_zms_signature_refused",
    "C22_refusal_says_why",
    "C22_one_reason",
    "C22_accepted_or_reason"
   ],
   "note": "Acceptance is equivalent to the stand-alone definition valid_policy; four refusal corollaries."
  },
  {
   "property": "C23",
   "status": "partial",
   "theorems": [
    "C23_conditional_copy_fresh_partial",
    "C23_tag_is_that_of_the_copy",
    "C23_condition_exact",
    "C23_unsolicited_304_refuted"
   ],
   "note": "Proved for answers to conditional requests; refuted for an unsolicited 304, which revives an expired policy."
  },
  {
   "property": "C24",
   "status": "proved",
   "theorems": [
    "C24_attempts_bounded",
    "C24_gives_up_after_all_attempts",
    "C24_stops_at_success",
    "C24_success_returned_at_once",
    "C24_result_or_error",
    "C24_fallback",
    "C24_error_only_after_failure",
    "C24_bad_url"
   ],
   "note": "Bound and exact number of requests, stop at success, fallback to the newest valid download, never neither policy nor error."
  },
  {
   "property": "C25",
   "status": "partial",
   "theorems": [
    "C25_fetch_panics_only_on_partial",
    "C25_civil_server_no_panic_partial",
    "C25_result_used",
    "C25_304_without_copy_refuted",
    "C25_null_policy_refuted",
    "C25_key_update_panics_only_on_partial",
    "C25_key_update_304_refuted",
    "C25_key_update_null_body_refuted",
    "C25_key_update_null_key_refuted"
   ],
   "note": "Panics are exactly the listed misbehaviours (304 without a copy, null body, null key element); all refutations have witnesses; no panic with a civil server."
  },
  {
   "property": "C26",
   "status": "proved",
   "theorems": [
    "C26_keys_equal_list",
    "C26_removed_keys_gone",
    "C26_update_succeeds_iff_all_keys_valid"
   ],
   "note": "Any traversal order and arbitrary activity in the other environment; other runs of the same environment may not change keys meanwhile."
  },
  {
   "property": "C27",
   "status": "proved",
   "theorems": [
    "C27_failed_update_changes_nothing",
    "C27_environments_independent",
    "C27_bad_entry_fails"
   ],
   "note": "Every step of a run that ends in an error leaves all keys alone; steps never touch the other environment."
  },
  {
   "property": "C28",
   "status": "proved",
   "theorems": [
    "C28_no_gap",
    "C28_no_ghost"
   ],
   "note": "Any interleaving of any number of overlapping updates, every intermediate state."
  },
  {
   "property": "C29",
   "status": "partial",
   "theorems": [
    "C29_success_is_current_partial",
    "C29_update_nil_iff",
    "C29_update_reports_failures",
    "C29_etag_poisoning_refuted",
    "C29_missing_etag_refuted"
   ],
   "note": "Proved for non-overlapping updates and an honest server whose lists all decode; refuted by ETag poisoning after a failed decode and by an interleaved answer without ETag."
  },
  {
   "property": "C30",
   "status": "proved",
   "theorems": [
    "C30_keys_come_from_own_environment",
    "C30_no_crossover",
    "C30_other_names_are_zms"
   ],
   "note": "All histories and interleavings; any name other than zts reads the ZMS keys."
  },
  {
   "property": "C31",
   "status": "proved",
   "theorems": [
    "C31_key_iff",
    "C31_only_configured_urls",
    "C31_unknown_jku_no_key",
    "C31_empty_kid_no_key"
   ],
   "note": "jwk provider: lookup exact, only configured URLs"
  },
  {
   "property": "C32",
   "status": "proved",
   "theorems": [
    "C32_targets_cover",
    "C32_every_target_attempted",
    "C32_only_downloads_change_keys",
    "C32_keeps_going"
   ],
   "note": "jwk Update: every target attempted, only downloads change keys, failures do not stop the others"
  },
  {
   "property": "C33",
   "status": "proved",
   "theorems": [
    "C33_parse_inverts_rendering",
    "C33_parse_exact",
    "C33_unknown_fields_ignored"
   ],
   "note": "parse succeeds exactly on renderings; field by field inverse; unknown fields ignored"
  },
  {
   "property": "C34",
   "status": "proved",
   "theorems": [
    "C34_accept_iff",
    "C34_expiry_present_and_not_past",
    "C34_fields_from_signed_text",
    "C34_unsigned_is_prefix"
   ],
   "note": "acceptance characterised exactly; expiry present and not past even under int64 overflow (clock after year 1); fields determined by signed text"
  },
  {
   "property": "C35",
   "status": "proved",
   "theorems": [
    "C35_no_signature",
    "C35_bad_piece_refused",
    "C35_never_panics",
    "C35_nil_provider_panics"
   ],
   "note": "malformed tokens refused; no panic for a non-nil key provider, exact panic condition for a nil one"
  },
  {
   "property": "C36",
   "status": "partial",
   "theorems": [
    "C36_signature_partial",
    "C36_leading_s_wins",
    "C36_signature_refuted"
   ],
   "note": "the signature is the text after the first separator unless the signed text starts with s=; the unconditional statement is refuted with a witness"
  },
  {
   "property": "C37",
   "status": "partial",
   "theorems": [
    "C37_accept_iff",
    "C37_accepted_is_signed",
    "C37_not_expired",
    "C37_already_valid_partial",
    "C37_already_valid_refuted",
    "C37_never_panics"
   ],
   "note": "acceptance characterised exactly; exp present and in the future whatever its size; iat/nbf not in the future only below 2^63-62135596800, beyond that time.Unix wraps: refuted with a witness"
  },
  {
   "property": "C38",
   "status": "proved",
   "theorems": [
    "C38_binding_exact"
   ],
   "note": "binding exact for every setting, certificate and claim set"
  },
  {
   "property": "C39",
   "status": "proved",
   "theorems": [
    "C39_client_id_exact",
    "C39_switches_off"
   ],
   "note": "client id check exact (lookup is by certificate common name)"
  },
  {
   "property": "C40",
   "status": "partial",
   "theorems": [
    "C40_rotation_no_overflow_partial",
    "C40_negative_offset_refuted"
   ],
   "note": "rotation sums do not overflow for a non-negative offset, any int64 iat; refuted for a negative offset"
  },
  {
   "property": "C41",
   "status": "proved",
   "theorems": [
    "C41_asymmetric_only",
    "C41_none_refused"
   ],
   "note": "no none/HMAC with asymmetric keys; none refused with any keys"
  },
  {
   "property": "C42",
   "status": "proved",
   "theorems": [
    "C42_bad_kid_refused",
    "C42_bad_jku_refused",
    "C42_key_from_configured_set"
   ],
   "note": "kid/jku rules, and the composition with the jwk daemon: key from the last download of a configured URL"
  },
  {
   "property": "C43",
   "status": "proved",
   "theorems": [
    "C43_bounded_staleness"
   ],
   "note": "any interleaving of any number of calls; time sums within int64 (clock + cacheExp <= max int64), as for every date before 2262"
  },
  {
   "property": "C44",
   "status": "partial",
   "theorems": [
    "C44_key_determines_request_partial",
    "C44_same_request_refuted"
   ],
   "note": "refuted in general (witness /a?b vs /a:b); partial: colon-free token, action, resource and names, equal presence of a certificate, names instead of the certificate"
  },
  {
   "property": "C45",
   "status": "proved",
   "theorems": [
    "C45_only_success_stores",
    "C45_failure_not_cached",
    "C45_failed_call_leaves_cache",
    "C45_miss_is_evaluated"
   ],
   "note": "step-wise and for the whole call"
  },
  {
   "property": "C46",
   "status": "proved",
   "theorems": [
    "C46_empty_parameters",
    "C46_empty_parameters_http"
   ],
   "note": "for every schedule and for the HTTP path"
  },
  {
   "property": "C47",
   "status": "proved",
   "theorems": [
    "C47_verify_agrees",
    "C47_failure_is_invalid_credentials",
    "C47_first_success",
    "C47_disjunction",
    "C47_order"
   ],
   "note": "on the sequence of environments the authorizers meet; disjunction needs that no check panics (see C70)"
  },
  {
   "property": "C48",
   "status": "proved",
   "theorems": [
    "C48_principal_describes_token"
   ],
   "note": "fields proved here; authorized roles are what the policy check returned, the sub-multiset part is C04"
  },
  {
   "property": "C49",
   "status": "partial",
   "theorems": [
    "C49_role_certificates_never_authorize",
    "C49_enabling_changes_nothing",
    "C49_role_certificate_request_refuted"
   ],
   "note": "refuted: a certificate VerifyRoleCert accepts does not authorize; certificates alone never authorize, enabling them changes no answer"
  },
  {
   "property": "C50",
   "status": "partial",
   "theorems": [
    "C50_accepts_exactly_partial",
    "C50_order_independent",
    "C50_success_is_backed",
    "C50_no_roles_rejected",
    "C50_disabled_accepts",
    "C50_all_roles_checked_refuted"
   ],
   "note": "exact for unambiguous certificates in every iteration order and with the policy changing between the checks; refuted when two (domain, role) pairs concatenate to the same text"
  },
  {
   "property": "C51",
   "status": "partial",
   "theorems": [
    "C51_overrun_bounded_partial",
    "C51_expired_not_accepted_refuted"
   ],
   "note": "refuted (answer 10 s after expiry); proved: overrun bounded by cacheExp"
  },
  {
   "property": "C52",
   "status": "partial",
   "theorems": [
    "C52_nonpositive_never_expires",
    "C52_disables_caching_refuted"
   ],
   "note": "refuted: entries with a non-positive expiry never expire"
  },
  {
   "property": "C53",
   "status": "partial",
   "theorems": [
    "C53_other_cert_rejected",
    "C53_no_cert_rejected",
    "C53_stays_bound_refuted",
    "C53_needs_certificate_refuted",
    "C53_same_names_partial"
   ],
   "note": "refuted with another certificate and with none; partial: same common names for colon-free requests"
  },
  {
   "property": "C54",
   "status": "proved",
   "theorems": [
    "C54_success_is_backed",
    "C54_calls_are_isolated",
    "C54_never_blocked",
    "C54_authorize_is_a_schedule"
   ],
   "note": "every success backed; calls isolated; never blocked"
  },
  {
   "property": "C55",
   "status": "proved",
   "theorems": [
    "C55_policy_gets_translated_request",
    "C55_translator_error_rejects"
   ],
   "note": "the policy check is an uninterpreted answer here"
  },
  {
   "property": "C56",
   "status": "proved",
   "theorems": [
    "C56_first_match",
    "C56_no_match_unchanged",
    "C56_unknown_domain_unchanged",
    "C56_malformed_query_rejected"
   ],
   "note": "First matching rule decides; unchanged when none matches, for unknown domains and a nil map; a malformed query is an error exactly when a rule's method and segment count fit."
  },
  {
   "property": "C57",
   "status": "partial",
   "theorems": [
    "C57_deterministic_partial",
    "C57_deterministic_refuted"
   ],
   "note": "Equal to simultaneous substitution for every map order when request values have no opening brace and the template is literals and placeholders. The full claim is false: C57_deterministic_refuted shows a request whose result depends on the map order."
  },
  {
   "property": "C58",
   "status": "proved",
   "theorems": [
    "C58_accepts_exactly",
    "C58_nil_rejected",
    "C58_idempotent",
    "C58_names_distinct"
   ],
   "note": "NewMappingRules succeeds exactly on well-formed rule sets and the result mirrors them, for every iteration order; validating twice is harmless; accepted rules have distinct placeholder names."
  },
  {
   "property": "C59",
   "status": "proved",
   "theorems": [
    "C59_url_accepted_iff",
    "C59_url_rejected",
    "C59_only_https",
    "C59_bad_url_rejected",
    "C59_user_key_set_may_be_plain_http"
   ],
   "note": "URL acceptance characterised by an independent scheme predicate; all three default endpoints are https. User-supplied JWK URLs may be plain http (C59_user_key_set_may_be_plain_http), which is outside the statement."
  },
  {
   "property": "C60",
   "status": "proved",
   "theorems": [
    "C60_token_masked",
    "C60_key_masked",
    "C60_accepted_role_token",
    "C60_access_token"
   ],
   "note": "Masked texts characterised byte by byte."
  },
  {
   "property": "C61",
   "status": "proved",
   "theorems": [
    "C61_at_most_one_retry",
    "C61_failure_queues_retry",
    "C61_queue_never_blocks",
    "C61_retry_kept",
    "C61_retry_without_tick"
   ],
   "note": "For both kinds of loop and every schedule. Durations are not represented."
  },
  {
   "property": "C62",
   "status": "proved",
   "theorems": [
    "C62_errors_in_order",
    "C62_closing",
    "C62_jwk_errors_in_order",
    "C62_jwk_closing",
    "C62_can_finish",
    "C62_nothing_after_closing"
   ],
   "note": "For policyd/pubkeyd each error exactly once in order; for jwkd the texts are the merged blocks. C62_can_finish: shutdown completes if the user keeps receiving."
  },
  {
   "property": "C63",
   "status": "partial",
   "theorems": [
    "C63_backlog_bound",
    "C63_stuck",
    "C63_stalls_refuted",
    "C63_jwk_never_stalls_partial",
    "C63_jwk_shutdown_stalls_refuted"
   ],
   "note": "As stated refuted for policyd and pubkeyd (C63_stalls_refuted after 101 unread errors, C63_stuck) and for jwkd at shutdown. Proved: jwkd goes on before shutdown; exact backlog bound for the others."
  },
  {
   "property": "C64",
   "status": "proved",
   "theorems": [
    "C64_keys_before_policies",
    "C64_policy_result_after_keys",
    "C64_nil_means_all_updated",
    "C64_error_is_genuine",
    "C64_error_iff",
    "C64_terminates"
   ],
   "note": "errgroup semantics as documented in Daemon.v."
  },
  {
   "property": "C65",
   "status": "proved",
   "theorems": [
    "C65_fan_in",
    "C65_closing",
    "C65_kept_until_the_end",
    "C65_backlog_bound",
    "C65_errors_can_be_lost_at_shutdown"
   ],
   "note": "Errors of children still in their channels are lost at shutdown (C65_errors_can_be_lost_at_shutdown); the statement does not promise them."
  },
  {
   "property": "C66",
   "status": "proved",
   "theorems": [
    "C66_calls",
    "C66_last_call_unique",
    "C66_bound",
    "C66_sleeps",
    "C66_status_has_no_backoff"
   ],
   "note": "Characterises the calls, result and sleeps exactly. Retriable statuses are retried without back-off (C66_status_has_no_backoff)."
  },
  {
   "property": "C67",
   "status": "partial",
   "theorems": [
    "C67_body_usable_iff",
    "C67_success_is_drained",
    "C67_retried_bodies_leak",
    "C67_nothing_iff",
    "C67_usable_refuted"
   ],
   "note": "As stated refuted; proved exactly when the returned body is usable and when nothing is returned."
  },
  {
   "property": "C68",
   "status": "proved",
   "theorems": [
    "C68_formula",
    "C68_grows",
    "C68_total",
    "C68_total_documented",
    "C68_exact_waits"
   ],
   "note": "C68_formula etc. in exact real arithmetic, using the axioms of Coq.Reals; C68_exact_waits about the float64 computation, without axioms"
  },
  {
   "property": "C69",
   "status": "proved",
   "theorems": [
    "C69_last_option_wins",
    "C69_new_iff",
    "C69_defaults",
    "C69_options_take_effect",
    "C69_clients"
   ],
   "note": "C69_new_iff: New succeeds exactly with the configuration described field by field by the last value of each option."
  },
  {
   "property": "C70",
   "status": "partial",
   "theorems": [
    "C70_requests_safe_partial",
    "C70_no_pubkeyd_panics",
    "C70_disabled_kind_panics",
    "C70_policy_without_keys_panics",
    "C70_no_panic_refuted"
   ],
   "note": "As stated it is refuted (C70_no_panic_refuted). Proved: no request panics if the daemons needed by the enabled credential kinds run and the policy check and translator do not panic; and exactly when the nil provider or nil processor panics."
  },
  {
   "property": "C71",
   "status": "partial",
   "theorems": [
    "C71_accepted_is_authorized",
    "C71_no_role_denied_partial"
   ],
   "note": "C71_accepted_is_authorized is complete, over every interleaving of all parts including the expired hook: every accepted call rests on a token genuine when validated and roles allowed by a downloaded, properly signed policy. C71_no_role_denied_partial (no role of the token is denied) assumes that no expired hook was started on the cache the check had loaded (hooks on other caches are allowed) and that the documents of the Update of that cache are tame (no comma in role or action, no cross-policy conflict, roles not shared between domains, unexpired); without these it is false (C13, C16, C18, C74, C75)."
  },
  {
   "property": "C74",
   "status": "partial",
   "theorems": [
    "C74_lone_refresh_adds_document_partial",
    "C74_lone_refresh_touches_no_other_role",
    "C74_refresh_invents_nothing",
    "C74_overlapping_refreshes_lose_denial_refuted"
   ],
   "note": "Lone refreshes proved (document added exactly, other roles untouched, nothing invented). The last clause is false: two refreshes of one role that interleave lose a denial (witness run in C74_overlapping_refreshes_lose_denial_refuted)."
  },
  {
   "property": "C75",
   "status": "partial",
   "theorems": [
    "C75_denied_stays_denied_partial",
    "C75_grants_what_every_policy_denies_refuted"
   ],
   "note": "Refuted in general: a request that comes while an expired entry is refreshed can be granted and the wrong answer is cached. C75_denied_stays_denied_partial: holds if every check that granted a call went by a cache no hook was started on, with tame documents; hooks on other caches and other documents of any kind are allowed (example C75_after_a_hook_nonvacuous)."
  },
  {
   "property": "C72",
   "status": "partial",
   "theorems": [
    "C72_policy_body_closed_iff",
    "C72_key_body_closed_iff",
    "C72_unchanged_keys_leak_refuted"
   ],
   "note": "As stated it is false: a key-server body is closed exactly when the status is 200 and the body decodes, a policy body exactly when it can be read to its end; a witness family shows unchanged keys leak two bodies per update without bound. The exact conditions are proved."
  },
  {
   "property": "C73",
   "status": "partial",
   "theorems": [
    "C73_start_iff",
    "C73_publish_iff",
    "C73_default_periods_start",
    "C73_accepted_but_crashes_refuted",
    "C73_no_cache_crashes_refuted",
    "C73_update_crashes_refuted"
   ],
   "note": "As stated it is false: New accepts zero or negative periods, and a zero cache time, which make time.NewTicker panic in a goroutine. Proved: the exact condition on the option texts for Start and for publishing a policy update, and that default periods meet it."
  },
  {
   "property": "C76",
   "status": "partial",
   "theorems": [
    "C76_only_allowances_are_exchanged",
    "C76_assertions_are_the_roles_own",
    "C76_denials_unaffected",
    "C76_deny_first",
    "C76_readers_list_partial",
    "C76_values_without_overlap_partial",
    "C76_readers_list_without_overlap_partial",
    "C76_every_schedule_is_run",
    "C76_list_changes_under_readers_refuted"
   ],
   "note": "Proved for every schedule: the entries are those of the machine with values up to allowances standing for other allowances of the same role; denials keep their places, all denials come first, assertions are the role's own. Refuted (C76_list_changes_under_readers_refuted): when two goroutines overlap on one role, an append into a shared spare cell changes a cached list that nobody has written. Without overlap on a role slices are exactly values (last three theorems, hypothesis no_overlap)."
  },
  {
   "property": "C77",
   "status": "proved",
   "theorems": [
    "C77_grants_come_from_the_loaded_cache",
    "C77_old_caches_stop_counting",
    "C77_revoked_policies_stop_counting",
    "C77_revocation",
    "C77_not_at_once"
   ],
   "note": "Proved on the whole-system machine without restriction on hooks or interleavings. The machine lets a goroutine use the answer of any finished call on its fetcher; that each goroutine uses the call it makes itself (as in the code) is the hypothesis own_calls. C77_not_at_once: the cache time is needed, with a witness. Clock non-negative and not within the cache time of the end of int64 (C43)."
  },
  {
   "property": "C78",
   "status": "partial",
   "theorems": [
    "C78_examined_by_own_kind",
    "C78_kinds_separate_partial",
    "C78_principal_tells_kind",
    "C78_kinds_separate_refuted",
    "C78_bound_token_as_role_token_refuted"
   ],
   "note": "The property is false: C78_kinds_separate_refuted (a role token accepted as an access token with certificate binding on), C78_bound_token_as_role_token_refuted. Proved: own kind when examined, separation when all calls of a key are of one kind, and the principal always tells the kind it was validated as."
  },
  {
   "property": "C79",
   "status": "proved",
   "theorems": [
    "C79_accepted_on_carried_credential",
    "C79_carried_credential_suffices",
    "C79_one_credential_per_kind"
   ],
   "note": "Soundness, completeness and uniqueness of the carried credentials, against an independent description of the header and the certificate chain."
  },
  {
   "property": "C80",
   "status": "proved",
   "theorems": [
    "C80_query_is_decoded_exactly",
    "C80_a_query_says_one_thing",
    "C80_spelling_has_no_influence"
   ],
   "note": "ParseQuery characterised by an independent inductive description (iff), uniqueness, and independence of the spelling."
  },
  {
   "property": "C81",
   "status": "partial",
   "theorems": [
    "C81_path_value_is_a_segment",
    "C81_values_stay_in_their_segment_partial",
    "C81_values_stay_in_their_segment_refuted"
   ],
   "note": "False for query placeholders (C81_values_stay_in_their_segment_refuted); proved for rules whose placeholders are in the path, for all requests and iteration orders."
  },
  {
   "property": "C82",
   "status": "proved",
   "theorems": [
    "C82_whole_durations",
    "C82_one_meaning",
    "C82_durations",
    "C82_all_durations",
    "C82_decimals",
    "C82_whole_seconds",
    "C82_in_range",
    "C82_defaults_parse",
    "C82_default_periods"
   ],
   "note": "time.ParseDuration and int64(d.Seconds()) modelled in full (float64 through SpecFloat); C82_all_durations is about all texts, C82_decimals says when fractions are exact; C82_defaults_parse discharges the assumption of C69/C70/C73 about the default texts"
  },
  {
   "property": "C83",
   "status": "partial",
   "theorems": [
    "C83_results_are_isolated_partial",
    "C83_plain_use_is_careful",
    "C83_other_writes_are_seen",
    "C83_results_are_isolated_refuted",
    "C83_append_to_a_part_refuted",
    "C83_plain_callers_disturb_each_other_refuted"
   ],
   "note": "the headline is refuted by witnesses (element write, append to a sub-slice); proved for callers that write to no cell shown by a principal, with the condition shown necessary (C83_other_writes_are_seen) and satisfied by plain use"
  },
  {
   "property": "C84",
   "status": "proved",
   "theorems": [
    "C84_updates_keep_coming",
    "C84_and_return",
    "C84_failures_are_retried_soon",
    "C84_retries_are_spaced",
    "C84_freshness",
    "C84_jwk_needs_no_reader",
    "C84_ends_soon_after_cancel",
    "C84_first_retry_is_not_spaced",
    "C84_unread_updates_stop",
    "C84_cancel_may_be_passed_over",
    "C84_after_the_end",
    "C84_time_goes_on"
   ],
   "note": "deadlines are assumptions on Update, sleeps and the scheduler (record timing); C84_first_retry_is_not_spaced and C84_unread_updates_stop give the witnesses for the exceptions named in the statement"
  },
  {
   "property": "C85",
   "status": "proved",
   "theorems": [
    "C85_revocation_latency"
   ],
   "note": "Joint machine of System.v and the timed policy loop; the bounds D, S, L and d are hypotheses on the environment. Example: a complete timed run with three refreshes."
  },
  {
   "property": "C86",
   "status": "proved",
   "theorems": [
    "C86_shown_was_in_force",
    "C86_lasting_entries_are_shown",
    "C86_still_cache_is_shown_exactly",
    "C86_shown_is_signed",
    "C86_reading_has_no_effect",
    "C86_deletions_are_invisible",
    "C86_disabled",
    "C86_calls_return",
    "C86_decisions_follow_what_is_shown"
   ],
   "note": "Calls of GetPolicyCache beside the whole system; ToRawMap of gache is trusted as described in DESIGN.md."
  },
  {
   "property": "C87",
   "status": "proved",
   "theorems": [
    "C87_keys_in_force_are_recent",
    "C87_key_sets_in_force_are_recent",
    "C87_one_update_fetches_all",
    "C87_old_validations_stop_counting",
    "C87_revoked_keys_stop_counting",
    "C87_policies_by_recent_keys"
   ],
   "note": "Key received means a 200 answer: a run that is answered 304 changes nothing (when that is right: C29). The time between a key change at the server and the next update is C84/C85."
  },
  {
   "property": "C88",
   "status": "proved",
   "theorems": [
    "C88_keys_in_force",
    "C88_key_sets_in_force",
    "C88_key_revocation_latency",
    "C88_policy_revocation_latency",
    "C88_undecodable_list_keeps_the_old_key"
   ],
   "note": "Both key environments, JWKs and policies. The condition on 304 answers is needed: C88_undecodable_list_keeps_the_old_key is a run in which the new list cannot be decoded and the old key stays in force. No such condition for JWKs (no ETag there)."
  },
  {
   "property": "C89",
   "status": "proved",
   "theorems": [
    "C89_fetch_bounded",
    "C89_fetch_calls",
    "C89_fetch_progress",
    "C89_simplify_bounded",
    "C89_simplify_progress",
    "C89_update_bounded",
    "C89_goroutine_progress",
    "C89_update_progress",
    "C89_keys_bounded",
    "C89_keys_progress",
    "C89_key_sets_bounded",
    "C89_key_sets_progress",
    "C89_init_bounded"
   ],
   "note": "Bounds on the steps of every call and goroutine of a refresh, and progress: what has not returned has an enabled step (a sent request waits for its answer only). The bounds are attained in the example. How long a server takes to answer is a parameter."
  },
  {
   "property": "C90",
   "status": "partial",
   "theorems": [
    "C90_is_the_system",
    "C90_hook_has_a_reason",
    "C90_own_fetcher",
    "C90_crash_reason",
    "C90_no_crash_partial",
    "C90_crash_follows",
    "C90_one_hook_each",
    "C90_crash_is_final",
    "C90_one_goroutine_each",
    "C90_no_hook_before_expiry",
    "C90_no_hook_if_replaced",
    "C90_accepted_by_one_update",
    "C90_denied_stays_denied",
    "C90_crash_refuted",
    "C90_grants_what_every_policy_denies_refuted"
   ],
   "note": "the reason for, the number and the fetcher of every hook, that a crash needs a role of an unconfigured domain, and that no hook runs while documents are unexpired are proved in full; that no document crashes the process is refuted by a witness (C90_crash_refuted), and proved if all roles begin with configured domains; C90_grants_... replays C75 with the precise hook"
  },
  {
   "property": "C91",
   "status": "partial",
   "theorems": [
    "C91_grants_by_unexpired_policies_partial",
    "C91_accepted_by_unexpired_policies",
    "C91_hook_keeps_expired_refuted",
    "C91_fallback_keeps_expired_refuted"
   ],
   "note": "proved for executions in which caches are replaced before their policies expire (C91_accepted_by_unexpired_policies), and for any check by a cache that no hook was started on (_partial); with the hook, and with a document taken by fallback after its expiry, refuted by witnesses"
  },
  {
   "property": "C92",
   "status": "partial",
   "theorems": [
    "C92_methods_are_authorize_calls",
    "C92_calls_come_from_methods",
    "C92_accepted_by_authorize",
    "C92_rejected_by_authorize",
    "C92_panics_with_authorize",
    "C92_accepted_is_authorized",
    "C92_role_certificate_authorized",
    "C92_role_certificate_not_denied_partial",
    "C92_role_certificate_rejected",
    "C92_authorize_role_cert_rejects",
    "C92_no_policy_no_access",
    "C92_direct_is_http"
   ],
   "note": "With the expired hook running, that no policy denies what VerifyRoleCert accepts is missing (false then, see C71, C75); everything else holds without that premise."
  },
  {
   "property": "C93",
   "status": "proved",
   "theorems": [
    "C93_verdict_of_the_documents",
    "C93_refused_for_a_reason",
    "C93_entitled_is_accepted",
    "C93_method_not_refused",
    "C93_entitled_if_replaced"
   ],
   "note": "Premises in the theorems: documents not expired and tame, no expired hook (or caches replaced in time), the check not cancelled by the caller."
  },
  {
   "property": "C94",
   "status": "proved",
   "theorems": [
    "C94_failures_reported",
    "C94_closing",
    "C94_jwk_failures_reported",
    "C94_jwk_closing",
    "C94_silence"
   ],
   "note": "The text of the error an Update returns is left open (any text), its heading and everything after is exact."
  },
  {
   "property": "C95",
   "status": "proved",
   "theorems": [
    "C95_what_is_read",
    "C95_nothing_is_lost",
    "C95_quiet",
    "C95_cache_kept",
    "C95_cache_emptied",
    "C95_no_refresh_after_the_end",
    "C95_still_accepts_after_the_end"
   ],
   "note": "All for every run of the whole program; that calls are still accepted after the end is C95_still_accepts_after_the_end, a run."
  },
  {
   "property": "C96",
   "status": "proved",
   "theorems": [
    "C96_fresh_caches_grant",
    "C96_grant_latency",
    "C96_grant_latency_with_all_daemons",
    "C96_fresh_caches_grant_with_the_hook"
   ],
   "note": "Bound proved for the policy daemon with clock and loop, alone and with all daemons; premises on the server are spelled out in served_at and usable."
  },
  {
   "property": "C97",
   "status": "proved",
   "theorems": [
    "C97_listed_key_in_force",
    "C97_listed_in_sets_in_force",
    "C97_new_key_latency",
    "C97_new_key_set_latency",
    "C97_new_tokens_are_valid",
    "C97_new_tokens_get_in",
    "C97_undecodable_list_hides_new_keys"
   ],
   "note": "Bound proved for the public keys and the JWK sets with clock and loops; the condition on decoding is shown to be necessary by C97_undecodable_list_hides_new_keys."
  },
  {
   "property": "C98",
   "status": "proved",
   "theorems": [
    "C98_tokens_stay_valid",
    "C98_fetchers_return_their_copies",
    "C98_no_panic",
    "C98_outage_takes_nothing_away",
    "C98_outage_with_the_hook",
    "C98_expired_policy_comes_back",
    "C98_failed_update_publishes_nothing",
    "C98_failed_update_leaves_the_cache"
   ],
   "note": "whole system, any schedule; outage = failures, error statuses and undecodable pages; without the expired hook; the return of an expired policy is shown by a witness"
  },
  {
   "property": "C99",
   "status": "proved",
   "theorems": [
    "C99_checks_do_not_race",
    "C99_cache_is_there",
    "C99_cache_is_whole"
   ],
   "note": "By the Go memory model, for any number of goroutines."
  },
  {
   "property": "C100",
   "status": "partial",
   "theorems": [
    "C100_copies_are_whole",
    "C100_nil_only_before_the_first_copy",
    "C100_no_nil_after_an_update",
    "C100_no_nil_in_hooks",
    "C100_one_loop_has_no_race_partial",
    "C100_two_fetches_race_refuted",
    "C100_hook_races_with_updates_refuted",
    "C100_where_the_races_are",
    "C100_two_reads_to_repair"
   ],
   "note": "The daemon has races: refuted with witnesses for two fetches of one domain and for the expired hook. Proved: every race of every execution is at one of three places; no race with one loop, no cancelled call and no hook; copies are whole; nil only before the first copy."
  },
  {
   "property": "C101",
   "status": "proved",
   "theorems": [
    "C101_panic_iff",
    "C101_hook_iff",
    "C101_crash_iff",
    "C101_checks_never_panic",
    "C101_stays_up"
   ],
   "note": ""
  },
  {
   "property": "C102",
   "status": "partial",
   "theorems": [
    "C102_without_the_others",
    "C102_no_blocking",
    "C102_with_hooks",
    "C102_result_of_a_call",
    "C102_daemons_alone",
    "C102_same_key_refuted"
   ],
   "note": ""
  },
  {
   "property": "C103",
   "status": "proved",
   "theorems": [
    "C103_never_stuck",
    "C103_never_stuck_hooked",
    "C103_bounded",
    "C103_bounded_uniform",
    "C103_finishes_alone"
   ],
   "note": ""
  },
  {
   "property": "C104",
   "status": "partial",
   "theorems": [
    "C104_no_hook_without_goroutine",
    "C104_gone_stays_gone",
    "C104_authorizes_what_was_alive",
    "C104_expired_is_fetched_again_refuted"
   ],
   "note": "refuted for the cache Init made (and any whose goroutine has ended): a witness all of whose continuations without a publication refuse; proved: exactly what holds then (no hook, entries only go, only roles alive at the end of the goroutine are authorized)"
  },
  {
   "property": "C105",
   "status": "proved",
   "theorems": [
    "C105_reading_stops",
    "C105_reading_cancelled",
    "C105_nothing_read",
    "C105_update_stops",
    "C105_update_returns",
    "C105_cancelled",
    "C105_update_not_begun",
    "C105_interrupted_update_publishes_nothing"
   ],
   "note": ""
  },
  {
   "property": "C106",
   "status": "partial",
   "theorems": [
    "C106_unnamed_parameter_untranslated",
    "C106_rules_can_be_passed_by",
    "C106_checked_as_it_is",
    "C106_query_ignored_without_rules",
    "C106_denied_with_any_query_refuted"
   ],
   "note": "refuted in the whole system when mapping rules are configured; proved: for every rule set and query a parameter that switches the rules off, and that without rules the query has no influence"
  },
  {
   "property": "C107",
   "status": "partial",
   "theorems": [
    "C107_more_denials_fewer_grants_partial",
    "C107_more_allows_more_grants_partial",
    "C107_fewer_roles",
    "C107_order_of_roles",
    "C107_unknown_roles",
    "C107_more_denials_fewer_grants_refuted",
    "C107_more_allows_more_grants_refuted"
   ],
   "note": "for documents without commas in roles and actions (conditions of C12); refuted with commas; the claims about roles are complete"
  },
  {
   "property": "C108",
   "status": "partial",
   "theorems": [
    "C108_http_and_direct_agree_partial",
    "C108_role_token_same_result",
    "C108_access_token_same_result",
    "C108_same_calls",
    "C108_http_and_direct_agree_refuted"
   ],
   "note": "HTTP methods and methods given a token agree if the request has no query or there are no mapping rules; refuted with both."
  },
  {
   "property": "C109",
   "status": "proved",
   "theorems": [
    "C109_grants_after_update",
    "C109_nothing_before_first_update",
    "C109_one_domain_missing",
    "C109_methods_after_update"
   ],
   "note": ""
  },
  {
   "property": "C110",
   "status": "proved",
   "theorems": [
    "C110_role_token",
    "C110_role_token_not_early",
    "C110_policy",
    "C110_policy_not_early",
    "C110_cache",
    "C110_overrun"
   ],
   "note": "dates of access tokens are judged by another clock and left out"
  },
  {
   "property": "C111",
   "status": "partial",
   "theorems": [
    "C111_answers",
    "C111_entry_stays_partial",
    "C111_entry_lost",
    "C111_nothing_expired",
    "C111_entry_stays_refuted"
   ],
   "note": "false when somebody is about to delete the key as the entry is stored (refuted); proved otherwise, and the condition is exact"
  },
  {
   "property": "C112",
   "status": "proved",
   "theorems": [
    "C112_accepted",
    "C112_refused",
    "C112_not_early",
    "C112_exact_case"
   ],
   "note": ""
  },
  {
   "property": "C113",
   "status": "partial",
   "theorems": [
    "C113_arrangement_partial",
    "C113_policies_refuted",
    "C113_order_refuted"
   ],
   "note": "Proved under the conditions of C12 on the documents; without them refuted with witnesses (opposite assertions in two policies, commas)"
  },
  {
   "property": "C114",
   "status": "partial",
   "theorems": [
    "C114_own_cache_partial",
    "C114_readers",
    "C114_checks_partial",
    "C114_writes_are_felt",
    "C114_own_cache_refuted",
    "C114_fields_refuted",
    "C114_append_refuted",
    "C114_own_map_partial",
    "C114_own_map_refuted"
   ],
   "note": "False without the condition that no cell or assertion in the cache is written (C114_own_cache_refuted, C114_fields_refuted, C114_append_refuted); proved under it (C114_own_cache_partial) and in full for users who only read (C114_readers). What users see in their map: proved for slices cut within their length (C114_own_map_partial), false for slices cut up to the capacity (C114_own_map_refuted)."
  }
 ]
}
