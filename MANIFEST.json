{
 "claims": [
  {
   "property": "C01",
   "status": "partial",
   "theorems": [
    "C01_session_key_roundtrip_iff",
    "C01_session_key_injective",
    "C01_unpack_total",
    "C01_session_key_injective_refuted",
    "C01_session_key_unpack_refuted"
   ],
   "note": "Exact characterisation of the ids that round-trip; the unrestricted claim is refuted (ids containing ';;' or ending in ';')."
  },
  {
   "property": "C02",
   "status": "partial",
   "theorems": [
    "C02_grant_map_refinement",
    "C02_set_grant",
    "C02_set_client",
    "C02_set_user",
    "C02_read_only",
    "C02_set_grant_refuted"
   ],
   "note": "Refinement: over every history of grant stores the readable grants are exactly the last values put; exact effect of set at each depth for well-formed (linked) stores. Without linkedness (after delete of a user path) refuted."
  },
  {
   "property": "C03",
   "status": "partial",
   "theorems": [
    "C03_create_session_partial",
    "C03_isolation",
    "C03_same_client_refuted",
    "C03_histories_well_formed",
    "C03_client"
   ],
   "note": "Exact effect of create_session and isolation over all histories for every other user/client pair; for the same pair the claim is refuted (the earlier session becomes unreadable)."
  },
  {
   "property": "C04",
   "status": "partial",
   "theorems": [
    "C04_delete_user",
    "C04_delete_client",
    "C04_delete_grant_partial",
    "C04_delete_grant_refuted",
    "C04_delete_grant_overwrites_refuted",
    "C04_delete_client_serialising_refuted"
   ],
   "note": "User path: exact. Client path: exact when all listed grants are stored. Grant path: exact except below the user named like the client; the full claim is refuted (database.py:132, and stale listing in a serialising store)."
  },
  {
   "property": "C05",
   "status": "partial",
   "theorems": [
    "C05_removed_stays_removed",
    "C05_only_creation_creates",
    "C05_user_delete_refuted"
   ],
   "note": "Proved over every history in both storage kinds when user ids and client ids are kept apart and grant ids are fresh; refuted after delete([user])."
  },
  {
   "property": "C06",
   "status": "partial",
   "theorems": [
    "C06_code_once",
    "C06_cut",
    "C06_threads_refuted"
   ],
   "note": "At most one successful response in every history of uninterrupted calls (parsing and processing are separate steps, interleaved in any way). Refuted when another thread runs inside process_request, between minting and counting."
  },
  {
   "property": "C07",
   "status": "partial",
   "theorems": [
    "C07_revoke_recursive_exact",
    "C07_revoke_based_on_exact",
    "C07_revoke_single_exact",
    "C07_revoke_pair_exact",
    "C07_revoke_all_exact",
    "C07_revoke_depth_refuted",
    "C07_manager_revoke_token"
   ],
   "note": "Proved exactly, for grants and for the session manager, on every grant built by minting when the recursion limit exceeds the number of tokens; unconditional termination is refuted for every fixed limit."
  },
  {
   "property": "C08",
   "status": "proved",
   "theorems": [
    "C08_userinfo_partial",
    "C08_introspection_partial",
    "C08_dead_stays_dead"
   ],
   "note": "Every history: the token endpoint gives no successful answer for a dead token and accepts no request with it, userinfo refuses it, introspection says inactive. Session ids in token values are assumed to be made of unambiguous names."
  },
  {
   "property": "C09",
   "status": "partial",
   "theorems": [
    "C09_revoke_client_tokens_unchanged",
    "C09_no_effect_refuted",
    "C09_token_endpoint",
    "C09_client_session_refuted"
   ],
   "note": "Token endpoint after revoke_grant: proved for every later history. Refuted for userinfo and introspection (every session and token) and for the token endpoint after revoke_client_session."
  },
  {
   "property": "C10",
   "status": "proved",
   "theorems": [
    "C10_lineage_authorised",
    "C10_mint_token",
    "C10_mint_outcome",
    "C10_tokens_persist"
   ],
   "note": "History theorem over all mint/use/revoke sequences on a grant plus the exact effect of one mint."
  },
  {
   "property": "C11",
   "status": "proved",
   "theorems": [
    "C11_token_activity",
    "C11_grant_activity",
    "C11_item_activity"
   ],
   "note": "Decision theorem (iff) for tokens, grants and explicit times."
  },
  {
   "property": "C12",
   "status": "partial",
   "theorems": [
    "C12_client_ignored_refuted",
    "C12_refuted",
    "C12_thief_refuted"
   ],
   "note": "Refuted in general: the outcome never depends on the client; witness with another client's code and refresh token. From the received requests on: every client that can authenticate can use every code it gets hold of."
  },
  {
   "property": "C13",
   "status": "proved",
   "theorems": [
    "C13_redirect_uri",
    "C13_received"
   ],
   "note": "For every request, session and state; from the received requests on: C13_received (for codes without blanks and checks that keep the members that are read)."
  },
  {
   "property": "C14",
   "status": "proved",
   "theorems": [
    "C14_verifier",
    "C14_authorization",
    "C14_methods",
    "C14_configured",
    "C14_received"
   ],
   "note": "Token endpoint: after every history. Authorization endpoint hook: iff. Configurable methods are verifiable. From the received requests on: tokens for a code only with a verifier for the challenge of the visit it was handed out in."
  },
  {
   "property": "C15",
   "status": "partial",
   "theorems": [
    "C15_refresh_refuted",
    "C15_differs_refuted"
   ],
   "note": "Refuted in general: with PKCE on, no refresh request is ever accepted."
  },
  {
   "property": "C16",
   "status": "proved",
   "theorems": [
    "C16_userinfo",
    "C16_introspection",
    "C16_token_endpoint"
   ],
   "note": "Token endpoint after every history; userinfo; introspection."
  },
  {
   "property": "C17",
   "status": "proved",
   "theorems": [
    "C17_userinfo",
    "C17_userinfo_complete",
    "C17_str_values_refuted"
   ],
   "note": "userinfo: exactly the listed claims that the user has and that satisfy their requests, sub from the grant; requests whose values member is a str are a substring test (refuted separately). Claims in ID tokens: see C19."
  },
  {
   "property": "C18",
   "status": "partial",
   "theorems": [
    "C18_get_claims",
    "C18_authorize",
    "C18_history",
    "C18_other_clients",
    "C18_frame",
    "C18_later_session_refuted",
    "C18_earlier_session_refuted"
   ],
   "note": "Proved for configurations without dict valued per-client claims, and for the influence of other clients in all configurations; refuted for two sessions of the same client with dict valued claims."
  },
  {
   "property": "C19",
   "status": "partial",
   "theorems": [
    "C19_claims",
    "C19_attributes",
    "C19_acr",
    "C19_made",
    "C19_hash_refuted",
    "C19_authorization",
    "C19_token_refuted"
   ],
   "note": "Proved: all protocol claims, the exact user attributes, the acr check, the hashes of a code or token that is handed over, and, end to end, the ID Token of an authorization response. Refuted (universal): without a code or token a user attribute can stand as c_hash or at_hash; ID Tokens of the token endpoint have no at_hash of the access token in the same answer. exp and iss are given to the JWT library."
  },
  {
   "property": "C20",
   "status": "partial",
   "theorems": [
    "C20_sound",
    "C20_first",
    "C20_exact",
    "C20_complete_refuted",
    "C20_used",
    "C20_only",
    "C20_unknown_refuted",
    "C20_used_refuted",
    "C20_blank_refuted",
    "C20_hash_refuted",
    "C20_registered_partial",
    "C20_own_scheme_refuted",
    "C20_only_whole",
    "C20_parsed",
    "C20_received",
    "C20_login"
   ],
   "note": "Sound (C20_sound; for every request that is let through: C20_parsed; for every response to whatever is received at the authorization endpoint: C20_received; for the address a user comes back to after the login page: C20_login). Exact when the registered URIs have different bases (C20_exact; C20_first in general). Refuted: two registered URIs with one base (completeness), the URI used is not the unquoted one that was compared, parameters without value are not compared, a native client's URI with a query is never accepted, unknown client gives '', and any accepted URI is also accepted with '#' at the end (universal)."
  },
  {
   "property": "C21",
   "status": "partial",
   "theorems": [
    "C21_registered_partial",
    "C21_accepted",
    "C21_object_refuted"
   ],
   "note": "Proved over all histories of pushed and ordinary requests when fetched request objects name the client with whose keys they were verified, and completeness. Refuted (universal) for request objects that name another client."
  },
  {
   "property": "C22",
   "status": "partial",
   "theorems": [
    "C22_token",
    "C22_code_partial",
    "C22_hash_refuted",
    "C22_modes",
    "C22_mismatch",
    "C22_registered",
    "C22_received"
   ],
   "note": "Proved: tokens go in the fragment or a form page only (from the received request on: C22_received); codes in the query or a form page if the redirect_uri has no '#'; unknown and unfit modes are refused. Refuted (universal): a redirect_uri that ends in '#' puts the code in the fragment."
  },
  {
   "property": "C23",
   "status": "proved",
   "theorems": [
    "C23_basic",
    "C23_post",
    "C23_accepts"
   ],
   "note": "Both directions: what an accepted Basic or POST secret establishes, and that a client that proves itself with the secret, or with an assertion used for the first time, is accepted, where the methods tried before are passed over (C23_accepts)."
  },
  {
   "property": "C24",
   "status": "partial",
   "theorems": [
    "C24_rejected",
    "C24_accepted",
    "C24_none_refuted",
    "C24_other_refuted",
    "C24_bearer_body_refuted",
    "C24_bearer_header_refuted"
   ],
   "note": "False as stated: refuted where 'none' is allowed (C24_none_refuted, universal), where another method verifies (C24_other_refuted), for bearer_body with a client_id and for bearer_header at endpoints that do not look tokens up (both universal). Proved: without 'none', a request none of whose credentials verify is refused and changes nothing (C24_rejected); what an accepted request had (C24_accepted)."
  },
  {
   "property": "C25",
   "status": "partial",
   "theorems": [
    "C25_once",
    "C25_no_id_refuted",
    "C25_cut",
    "C25_threads_refuted",
    "C25_not_blocked",
    "C25_blocked_refuted"
   ],
   "note": "Proved over all histories for JWTs with an id, and that only a JWT of the same issuer and id blocks (issuers without ':'). Refuted: JWTs without an id, two threads, issuers with ':'."
  },
  {
   "property": "C26",
   "status": "partial",
   "theorems": [
    "C26_others",
    "C26_success",
    "C26_secret_partial",
    "C26_secret_refuted",
    "C26_failure_partial",
    "C26_atomic_refuted"
   ],
   "note": "Proved: no other client is ever touched; what success and failure leave. Refuted: a failed registration leaves a client with a valid secret (C26_atomic_refuted, universal); the secret and most other members can be set by the request (C26_secret_refuted, universal)."
  },
  {
   "property": "C27",
   "status": "partial",
   "theorems": [
    "C27_capabilities",
    "C27_substring_refuted",
    "C27_redirect_uris",
    "C27_recorded",
    "C27_native_fragment_refuted",
    "C27_key"
   ],
   "note": "Proved: every preference in the record is in the provider's list; an algorithm without a key is left out; redirect URIs accepted exactly characterised. Refuted: fragments of native clients' URIs (universal); substring test when the provider's value is a str (universal)."
  },
  {
   "property": "C28",
   "status": "partial",
   "theorems": [
    "C28_bearer_header",
    "C28_issued",
    "C28_bearer_body_refuted",
    "C28_unconfigured_refuted"
   ],
   "note": "Proved for endpoints where only the bearer header counts, over all histories. Refuted for bearer_body and for an endpoint without configured method (both universal)."
  },
  {
   "property": "C29",
   "status": "partial",
   "theorems": [
    "C29_once",
    "C29_gone",
    "C29_threads",
    "C29_client_refuted",
    "C29_time_refuted",
    "C29_pushed",
    "C29_pushed_kept"
   ],
   "note": "Proved: at most one use over all histories with distinct UUIDs, also with threads; later uses are turned away; a request is kept only when its new name is the answer, credentials were shown if the endpoint asks for them, and its redirect_uri is registered (C29_pushed). Refuted (universal): the reference works for other clients and after its lifetime."
  },
  {
   "property": "C30",
   "status": "partial",
   "theorems": [
    "C30_none_partial",
    "C30_none_error",
    "C30_none_refuted",
    "C30_login_refuted",
    "C30_received"
   ],
   "note": "Proved: with prompt=none nobody is asked, if the methods name no session (C30_none_partial; for whatever is received: C30_received); login_required is the answer if nobody is recognised. Refuted (universal): if they name a session of another client, a revoked or an expired one, the user is asked; prompt=login has no effect at all."
  },
  {
   "property": "C31",
   "status": "partial",
   "theorems": [
    "C31_event",
    "C31_lifetime",
    "C31_time_refuted",
    "C31_reused"
   ],
   "note": "Proved: what create_authn_event makes, the configured life time, reuse of the event of a known session. Refuted (universal): the time recorded for a new session is the current one, whatever the cookie says."
  },
  {
   "property": "C32",
   "status": "partial",
   "theorems": [
    "C32_acr_values",
    "C32_claim_values",
    "C32_default",
    "C32_method",
    "C32_request",
    "C32_unsupported",
    "C32_single_refuted",
    "C32_value_refuted",
    "C32_null_claim_refuted",
    "C32_one_value",
    "C32_by_name"
   ],
   "note": "Proved for two or more registered methods: acr_values and the values of the acr claim are served in order of preference; a request that asks for nothing gets the method registered first. Refuted: with one method the request is ignored, a single acr value is not looked at, a null acr claim ends in TypeError (all universal). An unsupported class ends in an exception (C32_unsupported). acr_values that is one str is one class (C32_one_value); a method asked for by name is used (C32_by_name)."
  },
  {
   "property": "C33",
   "status": "partial",
   "theorems": [
    "C33_accepts_only_made",
    "C33_made_accepted",
    "C33_name_refuted",
    "C33_separator_refuted",
    "C33_bar_unreadable_refuted"
   ],
   "note": "Accepts only what was made, for every text, name and mode, when values and types do not contain the separator (as all callers ensure); refuted for values with the separator; the cookie name is proved to be unprotected."
  },
  {
   "property": "C34",
   "status": "partial",
   "theorems": [
    "C34_round_trip_exact",
    "C34_round_trip_iff",
    "C34_round_trip_refuted",
    "C34_terminates"
   ],
   "note": "Exact result of the round trip and termination on every text; the unrestricted round trip is refuted (trailing white space of the last value is lost)."
  },
  {
   "property": "C35",
   "status": "proved",
   "theorems": [
    "C35_resolves",
    "C35_accepts_only_made",
    "C35_unknown_refused",
    "C35_type_argument_refuted",
    "C35_jwt_handler_refuted",
    "C35_jwt_expired"
   ],
   "note": "Any mix of default and JWT handlers resolves its own values; default handlers accept only values that were made. Known defects stated as separate theorems (type argument, JWT handler identity, expired JWT)."
  },
  {
   "property": "C36",
   "status": "partial",
   "theorems": [
    "C36_token",
    "C36_token_refuted",
    "C36_info",
    "C36_grant_partial",
    "C36_reachable",
    "C36_behaves",
    "C36_count_refuted",
    "C36_users_refuted",
    "C36_claims_refuted"
   ],
   "note": "Proved: tokens read into an object of their class, user and client sessions, and all of a grant but its count of uses and shared claims; without usage limit the copy behaves the same in every later history. Refuted (universal): the count, an ExchangeGrant's users and sharing of claims are lost; the store's converter reads no token."
  },
  {
   "property": "C37",
   "status": "partial",
   "theorems": [
    "C37_revoke_grant_durable_partial",
    "C37_revoke_client_durable_partial",
    "C37_remove_durable_partial",
    "C37_revoke_token_never_durable",
    "C37_revoke_token_durable_refuted"
   ],
   "note": "Revoking a grant or client session and removing a session are durable; revoke_token in a serialising store is proved to have no effect at all (refuted)."
  },
  {
   "property": "C38",
   "status": "partial",
   "theorems": [
    "C38_public",
    "C38_ephemeral",
    "C38_pairwise_partial",
    "C38_pairwise_refuted",
    "C38_registered_pairwise_refuted",
    "C38_no_sector_refuted"
   ],
   "note": "Public identifiers: exact. Pairwise: within a sector / for one user exact; different users in different sectors refuted; registered pairwise type ignored (refuted)."
  },
  {
   "property": "C39",
   "status": "partial",
   "theorems": [
    "C39_usage_rules",
    "C39_history",
    "C39_authorized_ignores_client_refuted",
    "C39_config_changed_refuted"
   ],
   "note": "The rules worked out are the provider's overridden by the client's, after every history; refuted for grants that went through the authorization handler with provider rules, and configuration dicts are changed in place."
  },
  {
   "property": "C40",
   "status": "partial",
   "theorems": [
    "C40_filter_scopes",
    "C40_scope_claims",
    "C40_deny_unknown",
    "C40_policy_agrees",
    "C40_policy_differs_refuted",
    "C40_str_refuted",
    "C40_grant_scope_refuted",
    "C40_denied",
    "C40_received"
   ],
   "note": "filter_scopes, the deny policy (also where a request is processed, and for whatever is received: C40_received) and scope claims are exact for list valued settings; refuted: str valued allowed_scopes, policy and filter disagree, the grant keeps scopes the client may not use."
  },
  {
   "property": "C41",
   "status": "partial",
   "theorems": [
    "C41_own_partial",
    "C41_hint",
    "C41_works",
    "C41_refuted"
   ],
   "note": "Proved for requests without client_id: the URI is the provider's page or one registered by the session's client, and is used only with a verified hint for that client and subject. Refuted (universal): a client_id in the request lets any other client's URI in."
  },
  {
   "property": "C42",
   "status": "partial",
   "theorems": [
    "C42_all_partial",
    "C42_works",
    "C42_silent_refuted",
    "C42_unknown_refuted",
    "C42_one",
    "C42_tokens_refuted"
   ],
   "note": "Proved: exactly the sessions at clients with a logout URI are revoked. Refuted (universal): the others are not; one unregistered client stops everything; tokens work as before."
  },
  {
   "property": "C43",
   "status": "partial",
   "theorems": [
    "C43_active_iff",
    "C43_members_partial",
    "C43_members_refuted",
    "C43_unknown",
    "C43_gone_refuted"
   ],
   "note": "active is exact, and false for values that are not known (C43_unknown); members are those of the token unless a user claim of that name is listed; refuted without that condition. Refuted (universal): a value of a session or grant that is gone ends in an exception (C43_gone_refuted)."
  },
  {
   "property": "C44",
   "status": "partial",
   "theorems": [
    "C44_exact_partial",
    "C44_quote_refuted",
    "C44_injection_refuted",
    "C44_reference_refuted"
   ],
   "note": "Proved for names and values without double quote, ampersand, CR and NUL. Refuted for every value with a quote (universal), with injection of chosen parameters (universal), and for character references."
  },
  {
   "property": "C45",
   "status": "partial",
   "theorems": [
    "C45_lookup_partial",
    "C45_by_id",
    "C45_again_refuted",
    "C45_again_removed_refuted",
    "C45_supported"
   ],
   "note": "Proved over all histories in which no id is registered while it is registered, with the list of supported classes (C45_supported). Refuted for registering again (C45_again_refuted, universal; C45_again_removed_refuted)."
  },
  {
   "property": "C46",
   "status": "partial",
   "theorems": [
    "C46_nocache",
    "C46_content_type_partial",
    "C46_url_refuted",
    "C46_spelling_refuted",
    "C46_reuse_refuted",
    "C46_userinfo",
    "C46_discovery_refuted"
   ],
   "note": "Proved: no-cache headers in every response of the general method; exactly one content type for responses in the body and ready made ones, given orderly headers; userinfo. Refuted: responses in the URL have none, other spellings give two, a reused list of headers grows (all universal); the discovery endpoint forbids no caching."
  },
  {
   "property": "C47",
   "status": "partial",
   "theorems": [
    "C47_names_partial",
    "C47_form_post_refuted",
    "C47_received"
   ],
   "note": "Proved for all responses in the URL, from the received request on (C47_received). Refuted (universal) for form_post: the page is made before issuer and client are added."
  },
  {
   "property": "C48",
   "status": "proved",
   "theorems": [
    "C48_idtoken",
    "C48_userinfo",
    "C48_algorithms",
    "C48_registered",
    "C48_registered_userinfo"
   ],
   "note": "For ID Tokens in full, and from the registration on for clients that register an algorithm (C48_registered, C48_registered_userinfo) (the supported algorithms being a list of str in the last case); userinfo responses are signed only with the registered algorithm. jwx_def is a parameter."
  },
  {
   "property": "C49",
   "status": "partial",
   "theorems": [
    "C49_delete_expires",
    "C49_logout_refuted",
    "C49_append_refuted"
   ],
   "note": "delete_cookie: proved. Logout: refuted for every configuration."
  },
  {
   "property": "C50",
   "status": "proved",
   "theorems": [
    "C50_session_state",
    "C50_response"
   ],
   "note": "Equal states come from equal inputs, or the two hashed texts are a collision."
  },
  {
   "property": "C51",
   "status": "partial",
   "theorems": [
    "C51_disabled",
    "C51_given",
    "C51_enabled_refuted"
   ],
   "note": "Grant types off or not listed are refused: proved. Grant types enabled with True or None: refuted in general, every request ends in an exception."
  },
  {
   "property": "C52",
   "status": "partial",
   "theorems": [
    "C52_code_response",
    "C52_refresh_response",
    "C52_rotation_refuted",
    "C52_expires_in_refuted"
   ],
   "note": "Exact effect of a successful response proved for both grant types. Refuted: the old refresh token stays usable; expires_in without configured lifetime is minus the current time."
  },
  {
   "property": "C53",
   "status": "partial",
   "theorems": [
    "C53_assertion",
    "C53_request_param_refuted"
   ],
   "note": "Proved for client_secret_jwt and private_key_jwt; refuted for request objects (no audience or key check)."
  },
  {
   "property": "C54",
   "status": "proved",
   "theorems": [
    "C54_effect",
    "C54_note"
   ],
   "note": "C54_note says what is noted and where."
  },
  {
   "property": "C55",
   "status": "partial",
   "theorems": [
    "C55_client_of_request",
    "C55_unconfigured_refuted",
    "C55_methods",
    "C55_configured"
   ],
   "note": "Proved for endpoints whose methods are secret or assertion methods; refuted for an endpoint without configuration. C55_methods, C55_configured: the methods are those configured, or the default. bearer_* and none: see C24."
  },
  {
   "property": "C56",
   "status": "partial",
   "theorems": [
    "C56_message_partial",
    "C56_error_partial",
    "C56_ready",
    "C56_content_type_refuted",
    "C56_no_address_refuted"
   ],
   "note": "Proved for calls without a content type argument, and ready made messages. Refuted (universal): with a content type argument nothing is sent; an error before the return address is known cannot be sent by an endpoint that answers in the URL."
  },
  {
   "property": "C57",
   "status": "partial",
   "theorems": [
    "C57_registered_partial",
    "C57_fetched",
    "C57_unregistered_refuted",
    "C57_unsupported_refuted",
    "C57_used",
    "C57_used_only",
    "C57_mark_refuted"
   ],
   "note": "Proved for clients with registered request_uris, also from the registration on (C57_used, C57_used_only). Refuted (universal): clients without any; an address registered with a mark at the end and no fragment cannot be used (C57_mark_refuted); the setting request_uri_parameter_supported has no effect."
  },
  {
   "property": "C58",
   "status": "proved",
   "theorems": [
    "C58_recorded",
    "C58_cookies",
    "C58_types"
   ],
   "note": "In full, with what response types are answered at all (C58_types); the client database is not mentioned (the ID Token maker is arbitrary there)."
  },
  {
   "property": "C59",
   "status": "partial",
   "theorems": [
    "C59_sent_partial",
    "C59_nothing",
    "C59_said",
    "C59_state_refuted",
    "C59_timeout_refuted",
    "C59_denied_refuted",
    "C59_scope_refuted",
    "C59_login_required_partial"
   ],
   "note": "Proved: an error that is sent says which it is (C59_said) and goes to the redirect_uri, and so does login_required (without state). Refuted (universal): none has the state; a denied authorization is not sent at all, as for every request without scope with AuthzHandling."
  },
  {
   "property": "C60",
   "status": "partial",
   "theorems": [
    "C60_idtoken_refuted",
    "C60_userinfo_partial",
    "C60_userinfo_refuted",
    "C60_registered_partial"
   ],
   "note": "Proved for userinfo responses of clients with both algorithms. Refuted (universal) for ID Tokens, and for userinfo with the key management algorithm alone."
  },
  {
   "property": "C61",
   "status": "partial",
   "theorems": [
    "C61_refuted",
    "C61_token_refuted"
   ],
   "note": "Refuted (universal): no ID Token can be made for such a client (AttributeError), at either endpoint (examples). C19_made shows that others get theirs."
  },
  {
   "property": "C62",
   "status": "partial",
   "theorems": [
    "C62_max_age_partial",
    "C62_young",
    "C62_upm_refuted",
    "C62_zero_refuted"
   ],
   "note": "Proved for a positive age without upm_answer, and that a younger cookie counts. Refuted (universal): upm_answer=true and max_age=0 switch the limit off."
  },
  {
   "property": "C63",
   "status": "partial",
   "theorems": [
    "C63_recognised_refuted",
    "C63_over",
    "C63_forged_refuted",
    "C63_no_authn",
    "C63_no_cookie",
    "C63_unreadable"
   ],
   "note": "Proved: the cookie of a session that is over counts as none; the test method NoAuthn recognises that of an active one, and nobody by a cookie that cannot be read (C63_unreadable). Refuted (universal): that of an active one ends in a KeyError, and a wrongly signed one in an exception."
  },
  {
   "property": "C64",
   "status": "partial",
   "theorems": [
    "C64_password",
    "C64_header_refuted"
   ],
   "note": "Proved for user name and password. Refuted (universal): the two methods with a header accept nobody."
  },
  {
   "property": "C65",
   "status": "partial",
   "theorems": [
    "C65_user_partial",
    "C65_id_token_hint_refuted",
    "C65_login_hint_refuted"
   ],
   "note": "Proved: with a known wanted user no other is used. Refuted (universal): the id_token_hint is not looked at, and the supplied login_hint lookup cannot be used."
  },
  {
   "property": "C66",
   "status": "partial",
   "theorems": [
    "C66_session_partial",
    "C66_active",
    "C66_user_refuted",
    "C66_other_request"
   ],
   "note": "Proved: the method vouched for the user, the session is one of the client, and of that user or the one the identity names, which is active. Refuted (universal): in the latter case it may be another user's."
  },
  {
   "property": "C67",
   "status": "partial",
   "theorems": [
    "C67_told_partial",
    "C67_one",
    "C67_stop_refuted",
    "C67_status_refuted",
    "C67_registered",
    "C67_registered_front"
   ],
   "note": "Proved when no exception occurs: exactly the clients with a URI are told, each once (C67_told_partial, C67_one); this for clients that registered with such a URI: C67_registered, C67_registered_front. Refuted (universal): a failing request leaves the following clients untold, and refusals are not reported."
  },
  {
   "property": "C68",
   "status": "partial",
   "theorems": [
    "C68_frame_partial",
    "C68_fragment_refuted",
    "C68_quote_refuted",
    "C68_user_refuted"
   ],
   "note": "Proved for URIs without fragment and quotes. Refuted (universal): with a fragment the parameters are lost, quotes are not escaped, the session id contains the user id."
  },
  {
   "property": "C69",
   "status": "partial",
   "theorems": [
    "C69_state_partial",
    "C69_query_refuted"
   ],
   "note": "Proved for URIs without a query. Refuted for all with one."
  },
  {
   "property": "C70",
   "status": "partial",
   "theorems": [
    "C70_verified",
    "C70_unverified_refuted",
    "C70_methods_refuted",
    "C70_unnamed_refuted"
   ],
   "note": "Proved: a dict is used only if it verifies. Refuted (universal): other requests are not verified; with client authentication configured (other than by token) nothing is accepted."
  },
  {
   "property": "C71",
   "status": "partial",
   "theorems": [
    "C71_read_partial",
    "C71_restart_refuted",
    "C71_secret_refuted"
   ],
   "note": "Proved: readable while the endpoint lives. Refuted: not after a restart; with a stream cipher one known session id gives away the others."
  },
  {
   "property": "C72",
   "status": "partial",
   "theorems": [
    "C72_published",
    "C72_only",
    "C72_issuer",
    "C72_document",
    "C72_name_refuted"
   ],
   "note": "Proved for the endpoint classes of the library: each is published at its address, no other is, issuer and keys, and the document adds nothing. Refuted for a class of one's own that is called like a member of the metadata."
  },
  {
   "property": "C73",
   "status": "partial",
   "theorems": [
    "C73_kept_partial",
    "C73_id_token_refuted"
   ],
   "note": "Proved for all but what the provider says itself. Refuted (universal): the algorithms for ID Tokens, which clients can then register."
  },
  {
   "property": "C74",
   "status": "partial",
   "theorems": [
    "C74_offered",
    "C74_refused",
    "C74_default",
    "C74_none_refuted",
    "C74_capabilities_refuted"
   ],
   "note": "Proved: offered ones are supported unless capabilities name them, unsupported ones are refused, default and order. Refuted (universal): none can be configured at the token endpoint; capabilities are not checked."
  },
  {
   "property": "C75",
   "status": "partial",
   "theorems": [
    "C75_refresh_partial",
    "C75_no_handler_refuted",
    "C75_no_capabilities_refuted"
   ],
   "note": "Proved: when refresh tokens are said to be allowed. Refuted (universal): without handler for refresh tokens no set-up with a token endpoint; without capabilities no request of a known client is served."
  },
  {
   "property": "C76",
   "status": "partial",
   "theorems": [
    "C76_available",
    "C76_default",
    "C76_none_published_refuted"
   ],
   "note": "Proved when some scope is published, and by default. Refuted (universal): with an OAuth2 authorization or PAR endpoint no scope is published, all are available and none is accepted when unknown ones are denied."
  },
  {
   "property": "C77",
   "status": "partial",
   "theorems": [
    "C77_verify",
    "C77_bundle_refuted",
    "C77_certificate"
   ],
   "note": "Proved: verification is off only if configured so; the client certificate. Refuted (universal): a file of trusted certificates is dropped."
  },
  {
   "property": "C78",
   "status": "partial",
   "theorems": [
    "C78_shelve_partial",
    "C78_memory_partial",
    "C78_false_refuted",
    "C78_change_refuted",
    "C78_delete_refuted",
    "C78_list_partial",
    "C78_list_refuted"
   ],
   "note": "Proved: a shelf is a map unless values are changed in place without writeback; the in-memory store is one for values that count as true; membership in a ListDB. Refuted (universal): stored false values are not contained and cannot be deleted in memory, in-place changes are lost in a shelf, deleting a missing key raises in one store only, a ListDB keeps each value once."
  },
  {
   "property": "C79",
   "status": "proved",
   "theorems": [
    "C79_session",
    "C79_token",
    "C79_exchange",
    "C79_userinfo",
    "C79_introspection",
    "C79_nobody"
   ],
   "note": "For names without the separator (C01), and a session manager that the application uses only to revoke and remove. Parsing and client authentication (C21, C57; C23-C25, C53-C55) are not part of the histories: an authorization request is any parsed one, a token request any one that reaches the post-parse steps."
  },
  {
   "property": "C80",
   "status": "partial",
   "theorems": [
    "C80_configured",
    "C80_default",
    "C80_jwt",
    "C80_is_expired",
    "C80_default_lifetime_refuted",
    "C80_beside_refuted",
    "C80_empty_refuted",
    "C80_no_password"
   ],
   "note": "Proved: kind, lifetime and key of every handler; the defaults; JWTs are refused after their lifetime; nothing is set up without a key. Refuted (universal): the lifetime of the default handlers has no effect on what is accepted, a lifetime beside kwargs is ignored, an empty configuration of the codes makes every lookup fail."
  },
  {
   "property": "C81",
   "status": "proved",
   "theorems": [
    "C81_authorize",
    "C81_exchange",
    "C81_flow"
   ],
   "note": "For both authorization handlers; with the default one no claims come (C83). For response_type code and a user recognised without a session id of an earlier visit (with one see C63, C66). The parsing of the requests and the client authentication come before what is covered (C21, C57; C23-C25, C53-C55; together with it: C95); the ID Token is a condition (C19_made, C60 and C61 say when it can be made and when not). Conditions are on names (no separator), types of configured values, distinct bases of the registered addresses (C20), usage rules and times."
  },
  {
   "property": "C82",
   "status": "proved",
   "theorems": [
    "C82_orderly",
    "C82_isolated",
    "C82_answers",
    "C82_flow"
   ],
   "note": "For names without the separator (C01) and nobody being a user and a client. A token request is parsed and processed in two calls with anything in between; other calls are whole. A further login of the same user with the same client is about the same sessions, and does end the earlier one (C03)."
  },
  {
   "property": "C83",
   "status": "partial",
   "theorems": [
    "C83_grants_refuted",
    "C83_userinfo_refuted",
    "C83_introspection_refuted",
    "C83_exchange_refuted",
    "C83_config_refuted"
   ],
   "note": "Proved: the code flow completes (C81_flow covers both handlers), and only the subject is released. Refuted (universal, over all histories): no grant ever gets a scope, a claim, an audience or an end; userinfo and introspection answers and token responses say so; no refresh token comes from offline_access; with any configuration whose names are not all two characters long no authorization request is answered."
  },
  {
   "property": "C84",
   "status": "proved",
   "theorems": [
    "C84_code_once",
    "C84_kind",
    "C84_pkce",
    "C84_lasting",
    "C84_dead",
    "C84_revoked"
   ],
   "note": "For names without the separator (C01), token values without blanks and session ids that are not drawn twice. Each call is whole, a token request is parsed and processed in two; with threads inside one call a code can be redeemed twice (C06_threads_refuted). That userinfo and introspection go on to honour the access tokens of a revoked grant is C09."
  },
  {
   "property": "C85",
   "status": "partial",
   "theorems": [
    "C85_served",
    "C85_needs_bearer",
    "C85_state",
    "C85_header",
    "C85_refused",
    "C85_no_token_refuted",
    "C85_gone_refuted",
    "C85_client_refuted"
   ],
   "note": "Proved: who is served and with what (C85_served, C85_header), refusals of tokens in the header (C85_refused), and that nothing but a note of the method changes (C85_state). Refuted (universal): without a bearer token, or with a token whose session cannot be read any more, there is an exception and no error message; a client named in the request is not compared with the one of the token."
  },
  {
   "property": "C86",
   "status": "partial",
   "theorems": [
    "C86_tokens",
    "C86_introspection",
    "C86_unauthenticated_refuted",
    "C86_open_refuted",
    "C86_malformed",
    "C86_assertion_once",
    "C86_any_client_refuted",
    "C86_malformed_answered"
   ],
   "note": "Proved for endpoints set up with secrets or assertions and clients that have one name (also_known_as empty): who gets tokens and who is told about a token. Proved for all endpoints: malformed requests change nothing and get an error answer; where only assertions are accepted: one assertion serves one request. Refuted (universal): without valid credentials there is an exception and no error message, though nothing changes; with no method configured, which is the default of both endpoints, credentials make no difference at all; every client is told about every client's tokens (redeeming them is C12)."
  },
  {
   "property": "C87",
   "status": "partial",
   "theorems": [
    "C87_goes_on",
    "C87_flow",
    "C87_replaced_refuted"
   ],
   "note": "Proved: any number of rounds, from any session with a refresh token and from the authorization request on (C87_flow, C87_goes_on); PKCE off, as with PKCE no refresh request is served (C15). Refuted (universal): the token that was exchanged goes on working just the same, for as long as its own lifetime."
  },
  {
   "property": "C88",
   "status": "partial",
   "theorems": [
    "C88_set_up",
    "C88_complete",
    "C88_default_template_refuted",
    "C88_password",
    "C88_shared_action_refuted",
    "C88_page",
    "C88_no_methods_refuted",
    "C88_clash_refuted",
    "C88_only_password",
    "C88_received"
   ],
   "note": "Proved: the set-up (C88_set_up, C88_complete), the page (C88_page; for whatever is received, with the registered address to come back to: C88_received) and, when no other method has the same action, the check of the form (C88_password); no form passes without the password of a user of a registered method (C88_only_password). Refuted (universal): two password methods with the same action, the default, are both checked against the users of the later one; a password method that leaves out the template, which has a default, stops the set-up; page arguments called action or token; a provider without methods is set up but can answer no authorization request."
  },
  {
   "property": "C89",
   "status": "partial",
   "theorems": [
    "C89_same",
    "C89_set",
    "C89_calls",
    "C89_add_grant",
    "C89_first_login",
    "C89_login_again_refuted",
    "C89_remove",
    "C89_remove_leftover_refuted",
    "C89_delete_refuted",
    "C89_exchange",
    "C89_code_once",
    "C89_revoked"
   ],
   "note": "Proved for a serialising storage: the step by step programs are the functions (C89_same); every set, and every call made of one, is all or nothing (C89_set, C89_calls); adding a grant and the first log-in are so for the sessions; removal (C89_remove); exchange (C89_exchange); histories with stops (C89_code_once, C89_revoked). Refuted (universal): every later log-in of a user at a client passes a point without any session; the record of a user can be left behind for ever; deleting a client session with several grants, cut after the first, fails ever after."
  },
  {
   "property": "C90",
   "status": "partial",
   "theorems": [
    "C90_others_partial",
    "C90_ended_partial",
    "C90_undisturbed",
    "C90_read",
    "C90_logins_refuted",
    "C90_revocation_refuted",
    "C90_exchange_refuted",
    "C90_of_session"
   ],
   "note": "Proved for a storage that hands out copies: calls about different users (C90_others_partial, C90_ended_partial), where no module adds the claims of single clients and no client that is removed from is named like one of the users; readers beside a call that stores one record (C90_read). Refuted (universal: for every state there is a schedule) for calls about one user: a log-in that was answered is lost, a revocation is undone, a code is redeemed twice. Not covered: threads sharing the objects of an in-memory storage; other changes of the client database meanwhile."
  },
  {
   "property": "C91",
   "status": "partial",
   "theorems": [
    "C91_helpers",
    "C91_users_partial",
    "C91_users_refuted",
    "C91_again_partial",
    "C91_works",
    "C91_scopes_refuted",
    "C91_add_on_refuted"
   ],
   "note": "Proved for every configuration: what each helper is (C91_helpers), that the set-up works when they can be made (C91_works), users and reuse for an absolute directory or file or none (C91_users_partial, C91_again_partial). Refuted (universal): relative directories (C91_users_refuted), configured scopes handlers whose instances cannot be called (C91_scopes_refuted), add-ons without arguments (C91_add_on_refuted). The context counts as true."
  },
  {
   "property": "C92",
   "status": "partial",
   "theorems": [
    "C92_search",
    "C92_lookup",
    "C92_number_refuted",
    "C92_configured_refuted",
    "C92_classes"
   ],
   "note": "Proved: the search (C92_search), the lookup when it has users (C92_lookup), the classes of a hint (C92_classes). Refuted (universal): the first digit of a national number does not count and an empty number raises (C92_number_refuted); the lookup as the provider sets it up has no users (C92_configured_refuted)."
  },
  {
   "property": "C93",
   "status": "proved",
   "theorems": [
    "C93_response",
    "C93_token",
    "C93_code"
   ],
   "note": "C93_response, C93_token, C93_code. For both authorization handlers and a user recognised without a session id of an earlier visit; response types code, token and id_token in any combination (code alone is C81 again). That an ID Token can be made is a condition (C19_made says when it can; what is in it: C19, C48). The access token that comes with a code is made from the code, so the usage rules must let a code give access tokens; the condition says so. Requests are parsed and the response is encoded outside of what is covered here (C21, C57; C22, C47; together: C95)."
  },
  {
   "property": "C94",
   "status": "partial",
   "theorems": [
    "C94_registered_partial",
    "C94_supported",
    "C94_part_refuted",
    "C94_ignored_refuted",
    "C94_encrypted_refuted",
    "C94_encrypted",
    "C94_unset_refuted",
    "C94_request",
    "C94_taken"
   ],
   "note": "Proved for objects that are signed and not encrypted, with the algorithm names of RFC 7518 (C94_registered_partial) or no registration (C94_supported), and for whole requests (C94_request: an accepted request by reference has an object signed with a part of the registered name, or with a supported algorithm). Refuted (universal): parts of the registered name are enough (C94_part_refuted); how an object is encrypted makes no difference (C94_ignored_refuted); encrypted objects whose signature header has no enc member are never taken (C94_encrypted_refuted); with neither registration nor metadata every object ends in a TypeError (C94_unset_refuted)."
  },
  {
   "property": "C95",
   "status": "proved",
   "theorems": [
    "C95_front",
    "C95_flow",
    "C95_others"
   ],
   "note": "C95_flow (code), C95_others (any combination of code, token and ID Token), both over C95_front. The client proves itself with its secret or with an assertion used for the first time, and the methods tried before that are passed over (as in C23_accepts); requests are not by reference; the user is recognised without a session id of an earlier visit. That the bytes received become this message (oidcmsg) and the check of the message are parameters; signed userinfo answers: C45."
  },
  {
   "property": "C96",
   "status": "partial",
   "theorems": [
    "C96_registered",
    "C96_flow",
    "C96_addresses_refuted"
   ],
   "note": "Proved: C96_registered, and C96_flow for addresses that differ before the query part and that unquoting leaves alone. Refuted (universal): of two addresses that differ in the query only the second cannot be used (C96_addresses_refuted). The further addresses of the request (post_logout_redirect_uris, request_uris, sector_identifier_uri, policy_uri, logo_uri, tos_uri) keep to their rules (C110), and the request brings no secret, scopes or claims of its own (C26_secret_refuted); addresses with a scheme of their own have no query (C20_own_scheme_refuted). Authentication is with the secret, shown or used to sign an assertion, or with a key of the client's own."
  },
  {
   "property": "C97",
   "status": "proved",
   "theorems": [
    "C97_session",
    "C97_token",
    "C97_request",
    "C97_exchange",
    "C97_userinfo",
    "C97_introspection",
    "C97_nobody"
   ],
   "note": "For names without the separator (C01), checks of token and introspection requests that keep the members that are read, and a session manager that the application uses only to revoke and remove. What the web layer and oidcmsg make of the bytes of a request is a parameter. The credentials shown need not be those of the client of the session (C86_any_client_refuted)."
  },
  {
   "property": "C98",
   "status": "proved",
   "theorems": [
    "C98_code_once",
    "C98_kind",
    "C98_pkce",
    "C98_challenge",
    "C98_dead",
    "C98_revoked"
   ],
   "note": "As C84 for names, token values and session ids, and as C97 for checks and the use of the session manager. A received request is handled as a whole before the next one; with threads inside one request see C06_threads_refuted and C90. Bearer tokens: for requests that bring one token only, in the header or in the body. C98_challenge is about providers where every authorization request needs a challenge."
  },
  {
   "property": "C99",
   "status": "partial",
   "theorems": [
    "C99_meaning",
    "C99_published",
    "C99_usable_partial",
    "C99_released",
    "C99_taken_away_refuted",
    "C99_denied_refuted",
    "C99_twice_refuted",
    "C99_listed_refuted"
   ],
   "note": "Proved: meaning, metadata, release, and use where scopes are published (C99_usable_partial). Refuted: where no scopes are published the add-on takes all others away (C99_taken_away_refuted); the policy for unknown scopes does not know the custom ones unless the capabilities list them too (C99_denied_refuted); a second use forgets the first (C99_twice_refuted); a scope listed for a client that stands for no claims makes requests fail (C99_listed_refuted)."
  },
  {
   "property": "C100",
   "status": "partial",
   "theorems": [
    "C100_kinds",
    "C100_find_token",
    "C100_grants",
    "C100_authentication_events",
    "C100_info_partial",
    "C100_info_refuted",
    "C100_short",
    "C100_by_token",
    "C100_spec_partial",
    "C100_spec_refuted",
    "C100_added_refuted",
    "C100_removed_partial",
    "C100_removed_refuted",
    "C100_added_removed_refuted"
   ],
   "note": "Proved for ids without the separator (C01): the typed lookups, tokens, grants, events, the parts of the session information but for one combination (C100_info_partial), what applies to a token of an active grant (C100_spec_partial), removal of one of several grants of a sharing storage (C100_removed_partial). Refuted (universal): grant and authentication event asked for together raise (C100_info_refuted); what applies to a token is told for dead tokens too (C100_spec_refuted); an added grant is listed twice (C100_added_refuted); after a removal the grants cannot be listed (C100_removed_refuted, C100_added_removed_refuted)."
  },
  {
   "property": "C101",
   "status": "partial",
   "theorems": [
    "C101_access_token",
    "C101_other_tokens",
    "C101_scope_refuted",
    "C101_value",
    "C101_made"
   ],
   "note": "Proved: the exact payload of access tokens (C101_access_token) and of the others (C101_other_tokens), and that the minted value comes from it. Refuted: an attribute called scope (or aud) that is asked for replaces the scope of the grant (C101_scope_refuted). Encoding and encryption are parameters."
  },
  {
   "property": "C102",
   "status": "partial",
   "theorems": [
    "C102_code",
    "C102_refresh_partial",
    "C102_unknown_refresh_refuted",
    "C102_too_old_refuted",
    "C102_gone_refuted",
    "C102_verifier_partial",
    "C102_address_partial",
    "C102_blanks",
    "C102_blank_refuted",
    "C102_id_token_refuted",
    "C102_ended_refuted"
   ],
   "note": "Proved: C102_code (missing, unknown, gone, of another type, used up or expired codes), C102_refresh_partial (the same for refresh tokens but for unknown ones), C102_verifier_partial (PKCE, for verifiers in ASCII), C102_address_partial (another address), C102_blanks. Refuted (universal): unknown refresh tokens, expired JWTs, sessions that are gone while another of the user is there, a missing redirect_uri, verifiers that are not ASCII and sessions that have been revoked give exceptions; codes with blanks; an ID Token that cannot be made gives an error message when the code has been used already. Members of the request that are read are strings; names without the separator (C01)."
  },
  {
   "property": "C103",
   "status": "proved",
   "theorems": [
    "C103_orderly",
    "C103_isolated",
    "C103_userinfo",
    "C103_introspection",
    "C103_flow"
   ],
   "note": "For names without the separator (C01) and nobody being a user and a client; the check of token requests keeps the members that are read. The client's record may get the note how the client has authenticated; that nothing else of it changes is a hypothesis (which C106_same_record gives), as is that of the records the claims of a grant refer to. Introspection: for requests that are let in with the same result before and after."
  },
  {
   "property": "C104",
   "status": "partial",
   "theorems": [
    "C104_goes_on",
    "C104_flow",
    "C104_pkce_refuted"
   ],
   "note": "Proved without the PKCE add-on: C104_goes_on for a client that has a refresh token, C104_flow from the authorization request on. False with it: then no refresh request without a code in it gets anything (C104_pkce_refuted; see C15). Hypotheses as for C87 and C103: the rules let refresh tokens be used and leave room, handlers make new values, the record of the client changes but for notes how it has authenticated. That the old refresh token stays usable is C87_replaced_refuted."
  },
  {
   "property": "C105",
   "status": "partial",
   "theorems": [
    "C105_recognised_refuted",
    "C105_asked_again",
    "C105_same_request_partial",
    "C105_other_client_refuted"
   ],
   "note": "Refuted (universal): with a method that goes by the cookie every further request with the cookie of an active session raises KeyError, whatever client it is of (C105_recognised_refuted); with the method for tests a request of another client gets the login page (C105_other_client_refuted). Proved: an old authentication or a session that is over gives the login page (C105_asked_again); with the method for tests the same request of the same client gets a response for the same session (C105_same_request_partial). Cryptography, base64, JSON and the parsing of the Cookie header are parameters with the laws in SsoSpec.v."
  },
  {
   "property": "C106",
   "status": "partial",
   "theorems": [
    "C106_lasts",
    "C106_none_new",
    "C106_same_record",
    "C106_registration",
    "C106_idtokens",
    "C106_claims_refuted",
    "C106_flow",
    "C106_refreshing"
   ],
   "note": "Proved for all histories: every record stays, with everything in it but the note how the client has authenticated and, where claims of single clients are switched on and kept as a dict, these claims, of which none is lost (C106_lasts); no client appears (C106_none_new); for clients without such claims only the note changes (C106_same_record). Refuted (universal): claims kept as a dict take on what each request asks for (C106_claims_refuted; see C18). With it, C103's code flow and C104's refreshing hold with nothing assumed of the client's record (C106_flow, C106_refreshing). Hypothesis: making ID Tokens does not write, as the supplied code does not (C106_idtokens)."
  },
  {
   "property": "C107",
   "status": "partial",
   "theorems": [
    "C107_order",
    "C107_found",
    "C107_unchanged",
    "C107_default_refuted",
    "C107_client_refuted",
    "C107_out_of_the_box"
   ],
   "note": "Order and existence proved in full (C107_order, C107_found; what the built-in defaults are: C107_out_of_the_box). That a lookup changes nothing is proved where the grant says nothing for the type or the provider is configured with rules for it (C107_unchanged). Refuted (universal): otherwise the grant's rules are written into the defaults of the module and are in force for all others (C107_default_refuted), or into the client's record (C107_client_refuted). The function is not called by the endpoints, which use the rules of C39."
  },
  {
   "property": "C108",
   "status": "partial",
   "theorems": [
    "C108_arguments",
    "C108_dropped_refuted",
    "C108_error_refuted"
   ],
   "note": "Exactly eleven arguments get through, unchanged (C108_arguments). Refuted (universal): claims, expires_in and the token map are dropped without a word (C108_dropped_refuted); 'claim' and 'users' raise TypeError (C108_error_refuted)."
  },
  {
   "property": "C109",
   "status": "proved",
   "theorems": [
    "C109_session",
    "C109_exchange",
    "C109_introspection"
   ],
   "note": "For all sequences of received requests: sessions (C109_session) and the answers of the token endpoint to codes and refresh tokens (C109_exchange), and introspection (C109_introspection)."
  },
  {
   "property": "C110",
   "status": "partial",
   "theorems": [
    "C110_pages",
    "C110_post_logout",
    "C110_request_uris",
    "C110_post_logout_shown",
    "C110_sector",
    "C110_sector_refuted",
    "C110_return",
    "C110_return_only"
   ],
   "note": "Proved: pages (C110_pages), addresses after a logout (C110_post_logout; used at logout: C110_return, for addresses that differ before the query part and that unquoting leaves alone, and C110_return_only, for logout requests without a client_id, see C41_refuted), request URIs (C110_request_uris), the list of a sector identifier URI (C110_sector). Refuted (universal): a sector_id that is given without a sector_identifier_uri is recorded without any check (C110_sector_refuted)."
  },
  {
   "property": "C111",
   "status": "partial",
   "theorems": [
    "C111_scopes_partial",
    "C111_scopes_refuted",
    "C111_claims_partial",
    "C111_claims_refuted",
    "C111_rules_partial",
    "C111_rules_refuted"
   ],
   "note": "Proved for registrations that say nothing of scopes, claims or usage rules (C111_scopes_partial; C111_claims_partial, where no client has dict valued claims, see C18; C111_rules_partial). Refuted (universal): the scopes that a client allows itself in its registration are let through whatever the provider is configured with (C111_scopes_refuted), and where claims per client are enabled it is given the claims it lists for itself (C111_claims_refuted); the lifetime of its tokens is what it says (C111_rules_refuted; for grants that the handler has authorized only where the provider configures no usage rules, see C39)."
  }
 ]
}