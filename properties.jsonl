{"id": "C01", "title": "Session identifiers are unambiguous", "statement": "A session identifier built from (user id, client id, grant id) can be taken apart again into exactly those three ids, and two different triples never give the same session identifier.", "quantifier": "all lists of id strings", "why_tests_cant": "User and client ids are free text; a test only samples ids, while the separator can collide with any id content.", "anchors": ["src/oidcendpoint/session/__init__.py: session_key, unpack_session_key, DIVIDER"]}
{"id": "C02", "title": "The session store is a faithful hierarchical map", "statement": "After storing a value at a user, user/client or user/client/grant path, reading that path returns that value; every grant stored under another path that was readable before is still readable with the same value, and no unrelated path becomes readable.", "quantifier": "all store contents, paths and values (ids free of the separator)", "why_tests_cant": "Isolation between users and clients must hold for every population of the store, not the two or three sessions of a test.", "anchors": ["src/oidcendpoint/session/database.py: Database.set, Database.get"]}
{"id": "C03", "title": "A new login does not disturb other sessions", "statement": "Creating a session for one user and client leaves every previously created session (any user, any client) and all its tokens readable and unchanged.", "quantifier": "all store contents, all pairs of (user, client)", "why_tests_cant": "Needs all combinations of existing sessions and new logins, including same user + same client.", "anchors": ["src/oidcendpoint/session/manager.py: SessionManager.create_session, create_grant", "src/oidcendpoint/session/database.py: Database.set, Database.get"]}
{"id": "C04", "title": "Deleting a session path removes exactly that path", "statement": "delete(path) makes everything under path unreadable, and every grant, client session or user session outside path stays readable with its value; nothing outside path is created or overwritten.", "quantifier": "all store contents and all paths", "why_tests_cant": "Cross-effects show up only for particular relations between ids (for instance a user id equal to a client id) that tests do not combine.", "anchors": ["src/oidcendpoint/session/database.py: Database.delete", "src/oidcendpoint/session/manager.py: SessionManager.remove_session"]}
{"id": "C05", "title": "A removed session never comes back", "statement": "After remove_session(sid), in every later history of session creations, grants, revocations and removals, no lookup of sid succeeds.", "quantifier": "all histories of session-manager operations", "why_tests_cant": "Quantifies over unbounded later histories.", "anchors": ["src/oidcendpoint/session/manager.py: remove_session, create_session, create_grant, revoke_client_session, revoke_grant", "src/oidcendpoint/session/database.py"]}
{"id": "C06", "title": "An authorization code is redeemed at most once", "statement": "In every history of token-endpoint parse and process calls (interleaved arbitrarily with each other and with any other operation, clock moves included), a given authorization code leads to at most one successful token response.", "quantifier": "all histories / schedules of endpoint operations", "why_tests_cant": "Double redemption depends on the schedule; tests run one or two sequential orders.", "anchors": ["src/oidcendpoint/oidc/token.py: AccessTokenHelper.post_parse_request, AccessTokenHelper.process_request, TokenEndpointHelper._mint_token", "src/oidcendpoint/session/token.py: Item.is_active, AuthorizationCode", "src/oidcendpoint/session/grant.py: Grant.mint_token"]}
{"id": "C07", "title": "Recursive revocation reaches exactly the descendants", "statement": "revoke_token(value, recursive) terminates on every grant built by minting, revokes the named token and every token minted (directly or transitively) from it, and changes no other token and no other field.", "quantifier": "all grants reachable by minting, any depth and branching of token derivation", "why_tests_cant": "Depth and shape of the derivation tree are unbounded.", "anchors": ["src/oidcendpoint/session/grant.py: Grant.revoke_token, Grant.mint_token", "src/oidcendpoint/session/manager.py: SessionManager.revoke_token, _revoke_dependent"]}
{"id": "C08", "title": "Dead tokens stay dead", "statement": "Once a token is revoked, expired or used up, no later operation makes it acceptable again: for every later history with a non-decreasing clock, userinfo, introspection and the token endpoint refuse it.", "quantifier": "all histories of operations", "why_tests_cant": "Unbounded histories of later operations.", "anchors": ["src/oidcendpoint/session/token.py: Item.is_active, Token.register_usage", "src/oidcendpoint/session/grant.py: mint_token, revoke_token", "src/oidcendpoint/oidc/userinfo.py: UserInfo.process_request", "src/oidcendpoint/oauth2/introspection.py: Introspection.process_request", "src/oidcendpoint/oidc/token.py"]}
{"id": "C09", "title": "Revoking a grant or a client session disables its tokens", "statement": "After revoke_grant or revoke_client_session (logout) on a session, no access token, refresh token or code of that session is accepted by userinfo, introspection or the token endpoint.", "quantifier": "all sessions, tokens and later requests", "why_tests_cant": "Must hold for every token of every session and every endpoint.", "anchors": ["src/oidcendpoint/session/manager.py: revoke_grant, revoke_client_session", "src/oidcendpoint/oidc/userinfo.py", "src/oidcendpoint/oauth2/introspection.py", "src/oidcendpoint/oidc/token.py", "src/oidcendpoint/oidc/session.py: logout_all_clients, logout_from_client"]}
{"id": "C10", "title": "Token lineage is authorised", "statement": "Every token in a grant's issued list was minted while the grant was active; if it names a base token, that base is an earlier token of the grant whose rules allowed minting that type and which was active at that moment. A refused mint leaves the grant unchanged.", "quantifier": "all sequences of mint calls on a grant", "why_tests_cant": "Inductive over all mint histories.", "anchors": ["src/oidcendpoint/session/grant.py: Grant.mint_token", "src/oidcendpoint/session/token.py: Token.supports_minting, Item.is_active"]}
{"id": "C11", "title": "Token activity window", "statement": "A token (or grant) is reported active at time t exactly when it is not revoked, its use count is below its max_usage rule if it has one, t is not before not_before (if set) and t is not after expires_at (if set).", "quantifier": "all items and times", "why_tests_cant": "Boundary instants and rule combinations are infinitely many.", "anchors": ["src/oidcendpoint/session/token.py: Item.__init__, Item.is_active, Item.max_usage_reached"]}
{"id": "C12", "title": "A code or refresh token is usable only by the client it was issued to", "statement": "The token endpoint issues tokens for a code (or refresh token) only if the authenticated client is the client of the session the code (refresh token) belongs to.", "quantifier": "all clients, codes, sessions and requests", "why_tests_cant": "Every pair of clients and every session; the missing check is invisible to single-client tests.", "anchors": ["src/oidcendpoint/oidc/token.py: AccessTokenHelper.post_parse_request, RefreshTokenHelper.post_parse_request", "src/oidcendpoint/endpoint.py: Endpoint.parse_request"]}
{"id": "C13", "title": "redirect_uri binding at the token endpoint", "statement": "If the authorization request carried a redirect_uri, tokens are issued for its code only when the token request carries the identical redirect_uri.", "quantifier": "all requests and sessions", "why_tests_cant": "All strings.", "anchors": ["src/oidcendpoint/oidc/token.py: AccessTokenHelper.process_request"]}
{"id": "C14", "title": "PKCE binds a code to its verifier", "statement": "With PKCE on, when the authorization request carried a code_challenge the token endpoint issues tokens for the code only if the request's code_verifier transforms to that challenge under the recorded, allowed method; when PKCE is essential no authorization request without a challenge is processed.", "quantifier": "all authorization requests, verifiers, methods and configurations", "why_tests_cant": "All verifier/challenge/method combinations.", "anchors": ["src/oidcendpoint/oidc/add_on/pkce.py: post_authn_parse, verify_code_challenge, post_token_parse, add_pkce_support"]}
{"id": "C15", "title": "PKCE does not affect refresh requests", "statement": "Turning PKCE on does not change the outcome of a refresh_token request.", "quantifier": "all refresh requests and states", "why_tests_cant": "All states and requests.", "anchors": ["src/oidcendpoint/oidc/add_on/pkce.py: post_token_parse", "src/oidcendpoint/oidc/token.py: RefreshTokenHelper"]}
{"id": "C16", "title": "Token types cannot be confused", "statement": "Only authorization codes are redeemed by the authorization_code grant, only refresh tokens by the refresh_token grant, only access tokens are accepted by userinfo, and codes are never reported active by introspection.", "quantifier": "all token values and session states", "why_tests_cant": "All tokens in all states against all endpoints.", "anchors": ["src/oidcendpoint/oidc/token.py", "src/oidcendpoint/oidc/userinfo.py", "src/oidcendpoint/oauth2/introspection.py"]}
{"id": "C17", "title": "Userinfo releases only granted claims about the right user", "statement": "A successful userinfo response contains sub equal to the grant's subject identifier, and every other claim in it is listed in the grant's userinfo claims, has the value the user database holds for the session's user and satisfies the requested value/values restriction.", "quantifier": "all user databases, grants and claim specifications", "why_tests_cant": "All claim specifications and user records.", "anchors": ["src/oidcendpoint/oidc/userinfo.py: UserInfo.process_request", "src/oidcendpoint/session/claims.py: get_user_claims, claims_match"]}
{"id": "C18", "title": "Claims asked for in one request do not leak into other sessions", "statement": "The claims released for a session depend on its own request, scopes and the configuration only; processing other sessions' requests never enlarges them and never changes the client database.", "quantifier": "all histories of authorization requests and client configurations", "why_tests_cant": "Leak needs a particular history (same client, dict-valued per-client claims).", "anchors": ["src/oidcendpoint/session/claims.py: ClaimsInterface._get_client_claims, get_claims", "src/oidcendpoint/authz/__init__.py: AuthzHandling.__call__"]}
{"id": "C19", "title": "ID Token protocol claims cannot be overridden by user data", "statement": "In every ID Token payload sub is the grant's subject, nonce is the authorization request's nonce (absent if absent), acr and auth_time come from the authentication event, c_hash and at_hash are present exactly when a code / access token is handed over and are the hashes of those; user attributes never replace iss, sub, aud, exp, acr, nonce or auth_time.", "quantifier": "all user records, claim requests, sessions", "why_tests_cant": "All attribute names and values.", "anchors": ["src/oidcendpoint/id_token.py: IDToken.payload"]}
{"id": "C20", "title": "Redirect URI verification is sound and complete", "statement": "An authorization request's redirect_uri is accepted exactly when it has no fragment and its base and query equal those of some redirect URI registered for the client; the response is then sent to a registered URI.", "quantifier": "all URIs and registrations", "why_tests_cant": "All URI strings and registration lists.", "anchors": ["src/oidcendpoint/oauth2/authorization.py: verify_uri, get_uri", "src/oidcendpoint/util.py: split_uri"]}
{"id": "C21", "title": "Only registered response types are served", "statement": "An authorization request that passes parsing has, as a set, a response_type registered for the requesting client (default: code only).", "quantifier": "all requests and registrations", "why_tests_cant": "All permutations and combinations of response types.", "anchors": ["src/oidcendpoint/oauth2/authorization.py: verify_response_type, _post_parse_request"]}
{"id": "C22", "title": "Tokens never travel in a query string", "statement": "An authorization response that contains an access token or an ID Token is never sent with query encoding; a plain code response is never sent in a fragment; unknown response modes are refused.", "quantifier": "all requests, response types and response modes", "why_tests_cant": "All combinations.", "anchors": ["src/oidcendpoint/oauth2/authorization.py: create_authn_response, response_mode", "src/oidcendpoint/endpoint.py: fragment_encoding, do_response"]}
{"id": "C23", "title": "Client secret authentication is sound", "statement": "If client authentication with client_secret_basic or client_secret_post reports client c, the request carried exactly the secret on record for c, c is a known client and its registration has not expired.", "quantifier": "all requests, headers and client databases", "why_tests_cant": "All header / body / database contents.", "anchors": ["src/oidcendpoint/client_authn.py: ClientSecretBasic, ClientSecretPost, verify_client, valid_client_info, basic_authn"]}
{"id": "C24", "title": "Failed credentials are never accepted", "statement": "A request carrying credentials that do not verify is rejected, whatever other methods the endpoint allows.", "quantifier": "all requests and endpoint configurations", "why_tests_cant": "All method combinations.", "anchors": ["src/oidcendpoint/client_authn.py: verify_client", "src/oidcendpoint/endpoint.py: client_authentication"]}
{"id": "C25", "title": "A client assertion cannot be replayed", "statement": "A signed client assertion is accepted at most once over every history, and accepting one client's assertion never blocks another client's assertion.", "quantifier": "all histories of assertions", "why_tests_cant": "Histories.", "anchors": ["src/oidcendpoint/client_authn.py: JWSAuthnMethod.verify"]}
{"id": "C26", "title": "Client registration is atomic and never touches other clients", "statement": "A registration request either creates exactly one client record under a fresh client id, or fails leaving the client database unchanged; the record's client_secret is the server generated one.", "quantifier": "all registration requests and client databases", "why_tests_cant": "All request contents and databases.", "anchors": ["src/oidcendpoint/oidc/registration.py: client_registration_setup, do_client_registration"]}
{"id": "C27", "title": "Registered metadata obeys provider policy", "statement": "For every successfully registered client each capability preference is one the provider supports, and each redirect URI obeys the scheme rules of its application type and has no fragment; a signing algorithm that the provider has no key for is left out of the record.", "quantifier": "all registration requests", "why_tests_cant": "All request contents.", "anchors": ["src/oidcendpoint/oidc/registration.py: match_client_request, verify_redirect_uris, match_sp_sep"]}
{"id": "C28", "title": "Only the registration access token opens a registration", "statement": "Reading a client's registration succeeds only if the bearer token is a registration access token issued to that client id.", "quantifier": "all tokens, client ids, requests", "why_tests_cant": "All pairs.", "anchors": ["src/oidcendpoint/oidc/read_registration.py", "src/oidcendpoint/client_authn.py: BearerHeader, BearerBody, verify_client"]}
{"id": "C29", "title": "A pushed authorization request is used once, in time, by its client", "statement": "A pushed request_uri resolves at most once over every history, only within its advertised lifetime and only for the client that pushed it.", "quantifier": "all histories", "why_tests_cant": "Histories with time.", "anchors": ["src/oidcendpoint/oauth2/pushed_authorization.py", "src/oidcendpoint/oauth2/authorization.py: _do_request_uri"]}
{"id": "C30", "title": "prompt is honoured", "statement": "With prompt=none the authorization endpoint never asks for user interaction; with prompt=login it always re-authenticates.", "quantifier": "all requests, cookies and session states", "why_tests_cant": "All states.", "anchors": ["src/oidcendpoint/oauth2/authorization.py: setup_auth, re_authenticate", "src/oidcendpoint/oidc/authorization.py: re_authenticate"]}
{"id": "C31", "title": "The authentication event records when the user authenticated", "statement": "The authentication event attached to a grant has authn_time equal to the time of the authentication it is based on, and a valid_until that is the configured life time after it.", "quantifier": "all cookies, times, requests", "why_tests_cant": "All times.", "anchors": ["src/oidcendpoint/authn_event.py: create_authn_event, AuthnEvent.is_valid", "src/oidcendpoint/oauth2/authorization.py: setup_auth"]}
{"id": "C32", "title": "Requested authentication class is respected", "statement": "When acr values are requested, the authentication method picked has one of these acr values, unless none is requested in which case the first registered method is used.", "quantifier": "all method registries and requests", "why_tests_cant": "All registries.", "anchors": ["src/oidcendpoint/user_authn/authn_context.py: AuthnBroker, pick_auth", "src/oidcendpoint/oauth2/authorization.py: pick_authn_method"]}
{"id": "C33", "title": "Cookies are tamper evident", "statement": "A cookie value is accepted only if value, time stamp and type are together exactly those of a cookie this server made, for every byte string an attacker presents (ideal MAC / cipher).", "quantifier": "all cookie strings", "why_tests_cant": "All attacker strings, including moving bytes between the fields.", "anchors": ["src/oidcendpoint/cookie.py: sign_enc_payload, ver_dec_content, CookieDealer.create_cookie, CookieDealer.get_cookie_value"]}
{"id": "C34", "title": "Length:value packing round-trips and unpacking terminates", "statement": "lv_unpack(lv_pack(a1..an)) returns a1..an for every list of strings, and lv_unpack terminates on every input string.", "quantifier": "all lists of strings / all strings", "why_tests_cant": "All strings.", "anchors": ["src/oidcendpoint/util.py: lv_pack, lv_unpack"]}
{"id": "C35", "title": "A token value resolves to its own session and kind", "statement": "For every token value made by the code, access token or refresh token handler, the token handler finds the session id it was made for and the kind of the handler that made it; a value made by none of them is refused as unknown.", "quantifier": "all session ids, keys, randomness", "why_tests_cant": "All ids and keys.", "anchors": ["src/oidcendpoint/token/handler.py: TokenHandler.get_handler, info", "src/oidcendpoint/token/__init__.py: DefaultToken, Crypt"]}
{"id": "C36", "title": "Session state survives serialisation", "statement": "Serialising and de-serialising a token, grant, client session or user session gives back an object that behaves the same for every later operation.", "quantifier": "all objects", "why_tests_cant": "All field values.", "anchors": ["src/oidcendpoint/session/token.py: to_json, from_json", "src/oidcendpoint/session/grant.py: to_json, from_json", "src/oidcendpoint/session/storage.py"]}
{"id": "C37", "title": "Changes of session state are durable", "statement": "With a serialising (non in-memory) session store every acknowledged state change - revocation, code use, minted token, session removal - is visible to the next reader of the store.", "quantifier": "all store contents and operations", "why_tests_cant": "Depends on aliasing between store and objects.", "anchors": ["src/oidcendpoint/session/manager.py: revoke_token, revoke_grant, revoke_client_session", "src/oidcendpoint/session/database.py: set, delete", "src/oidcendpoint/oidc/token.py: _mint_token"]}
{"id": "C38", "title": "Subject identifiers identify one user, and pairwise ones one sector", "statement": "Two different users never share a subject identifier; one user has the same public identifier at every client; pairwise identifiers of one user in two sectors differ; clients registered as pairwise get pairwise identifiers.", "quantifier": "all user ids, sectors, salts", "why_tests_cant": "All strings (collision by concatenation).", "anchors": ["src/oidcendpoint/session/manager.py: pairwise_id, public_id, ephemeral_id, create_grant", "src/oidcendpoint/oidc/authorization.py: setup_client_session"]}
{"id": "C39", "title": "Per-client usage rules take precedence and never leak", "statement": "The usage rules applied to a client's tokens are the provider defaults overridden by that client's rules; computing or applying them never changes the configuration or another client's rules.", "quantifier": "all configurations and clients", "why_tests_cant": "All configurations.", "anchors": ["src/oidcendpoint/authz/__init__.py: usage_rules, usage_rules_for, __call__", "src/oidcendpoint/session/grant.py: get_usage_rules"]}
{"id": "C40", "title": "Scopes are limited to what the client may use", "statement": "filter_scopes returns, in order, exactly the requested scopes allowed to the client; with deny_unknown_scopes a request with any other scope is refused; claims derived from scopes come only from allowed scopes.", "quantifier": "all requests, clients, scope maps", "why_tests_cant": "All lists.", "anchors": ["src/oidcendpoint/scopes.py", "src/oidcendpoint/oauth2/authorization.py: check_unknown_scopes_policy"]}
{"id": "C41", "title": "Post-logout redirects go only to the session's client", "statement": "The end-session endpoint redirects only to a post_logout_redirect_uri registered for the client of the session that is being ended, or to the provider's own page.", "quantifier": "all end-session requests", "why_tests_cant": "All requests.", "anchors": ["src/oidcendpoint/oidc/session.py: Session.process_request", "src/oidcendpoint/oauth2/authorization.py: verify_uri"]}
{"id": "C42", "title": "Single logout reaches every client session of the user", "statement": "After logout_all_clients every client session of the user is revoked.", "quantifier": "all session stores and client registrations", "why_tests_cant": "All registrations.", "anchors": ["src/oidcendpoint/oidc/session.py: logout_all_clients"]}
{"id": "C43", "title": "Introspection tells the truth", "statement": "Introspection answers active=true exactly for live access and refresh tokens, with the client id, subject, scope, expiry of that token; user attributes cannot replace these members.", "quantifier": "all tokens and user records", "why_tests_cant": "All records.", "anchors": ["src/oidcendpoint/oauth2/introspection.py"]}
{"id": "C44", "title": "Form-post responses carry exactly the response parameters", "statement": "The HTML produced for response_mode=form_post contains one hidden input per response parameter and parsing it as HTML yields exactly these names and values, whatever the values contain.", "quantifier": "all parameter values", "why_tests_cant": "All strings, e.g. a state with quotes.", "anchors": ["src/oidcendpoint/oauth2/authorization.py: inputs, FORM_POST, response_mode"]}
{"id": "C45", "title": "The authentication method registry is consistent", "statement": "After any sequence of registrations and removals, looking methods up by acr returns exactly the registered methods with that acr.", "quantifier": "all operation sequences", "why_tests_cant": "Histories.", "anchors": ["src/oidcendpoint/user_authn/authn_context.py: AuthnBroker"]}
{"id": "C46", "title": "Responses are never cacheable and have one content type", "statement": "Every HTTP response descriptor of an endpoint contains the headers Pragma: no-cache and Cache-Control: no-store and exactly one Content-type header.", "quantifier": "all responses", "why_tests_cant": "All argument combinations.", "anchors": ["src/oidcendpoint/endpoint.py: do_response, set_content_type", "src/oidcendpoint/util.py: OAUTH2_NOCACHE_HEADERS"]}
{"id": "C47", "title": "Authorization responses name issuer and client", "statement": "Every successful authorization response carries the provider's issuer identifier, the client id of the request and the state of the request.", "quantifier": "all requests", "why_tests_cant": "All requests.", "anchors": ["src/oidcendpoint/oauth2/authorization.py: create_authn_response, authz_part2"]}
{"id": "C48", "title": "The ID Token signing algorithm is the negotiated one", "statement": "The algorithm used to sign an ID Token (or userinfo / request object response) is the client's registered one if any, else the provider wide one, else the default.", "quantifier": "all configurations", "why_tests_cant": "All configurations.", "anchors": ["src/oidcendpoint/id_token.py: get_sign_and_encrypt_algorithms"]}
{"id": "C49", "title": "Logout discards the session cookies", "statement": "The cookies sent when a user logs out make the browser drop both session cookies; a deleted cookie is always sent with an expiry in the past.", "quantifier": "all cookie configurations and times", "why_tests_cant": "All configurations, names and times.", "anchors": ["src/oidcendpoint/cookie.py: CookieDealer.delete_cookie, CookieDealer.create_cookie, append_cookie", "src/oidcendpoint/oidc/session.py: Session.kill_cookies"]}
{"id": "C50", "title": "The session state changes when the login state changes", "statement": "For one client and origin, two session_state values are equal only if salt and login state cookie value are equal (up to hash collisions).", "quantifier": "all cookie values, salts, clients and origins", "why_tests_cant": "All pairs of values, including those that differ only in where a field ends.", "anchors": ["src/oidcendpoint/cookie.py: compute_session_state"]}
{"id": "C51", "title": "The configured grant types are the ones served", "statement": "The token endpoint serves a grant type exactly when the configuration enables it: a grant type listed with True or None is served by the built-in helper, one listed with False or not listed is refused with an error.", "quantifier": "all configurations and requests", "why_tests_cant": "All configurations; the shipped examples all give explicit classes or none.", "anchors": ["src/oidcendpoint/oidc/token.py: TokenEndpoint.configure_grant_types, TokenEndpoint.post_parse_request"]}
{"id": "C52", "title": "A token response says what was recorded", "statement": "A successful token response changes exactly the grant of the presented code or refresh token: the use of a code is counted, the tokens in the response are recorded in that grant as fresh tokens made from the presented one with the configured lifetime, a presented refresh token is replaced by the new one, and expires_in is the lifetime.", "quantifier": "all requests, sessions and configurations", "why_tests_cant": "All states; what must not change (other grants, other tokens) is not observable in a single test.", "anchors": ["src/oidcendpoint/oidc/token.py: AccessTokenHelper.process_request, RefreshTokenHelper.process_request, TokenEndpointHelper._mint_token"]}
{"id": "C53", "title": "A signed assertion authenticates its issuer only", "statement": "If client authentication with client_secret_jwt or private_key_jwt (or a request object) reports client c, the request carried a JWT that verifies, was issued by c, is addressed to this endpoint and is signed with a key of the kind the method asks for (c's secret where the key is shared); c is known and its registration has not expired.", "quantifier": "all requests, JWTs, key jars, client databases and endpoint configurations", "why_tests_cant": "All combinations of algorithm, audience, issuer and key jar contents.", "anchors": ["src/oidcendpoint/client_authn.py: JWSAuthnMethod, ClientSecretJWT, PrivateKeyJWT, RequestParam"]}
{"id": "C54", "title": "Authentication changes nothing but its notes", "statement": "An authentication attempt that accepts nobody leaves the client database as it was; one that accepts a client changes at most the note of the method used at that client's entry. The set of JWT ids seen only grows.", "quantifier": "all attempts, outcomes and databases", "why_tests_cant": "It is about everything that must not change, on every path including exceptions.", "anchors": ["src/oidcendpoint/client_authn.py: verify_client"]}
{"id": "C55", "title": "An endpoint works for the authenticated client", "statement": "At an endpoint that asks for client authentication, the client a request is processed for is the one whose credentials verified, whatever client_id the request names.", "quantifier": "all requests, headers, databases and configurations", "why_tests_cant": "All combinations of credentials and claimed ids.", "anchors": ["src/oidcendpoint/endpoint.py: parse_request, client_authentication, Endpoint.__init__"]}
{"id": "C56", "title": "A response carries the message it was made for", "statement": "Every HTTP response made from an endpoint's decision carries exactly that message: the ready made text if there is one, otherwise the constructed message or the error with its description, serialised in the body or added to the return address's query or fragment without disturbing the rest of the address.", "quantifier": "all endpoints, messages, errors and keyword arguments", "why_tests_cant": "All argument combinations and all addresses.", "anchors": ["src/oidcendpoint/endpoint.py: Endpoint.do_response, fragment_encoding"]}
{"id": "C57", "title": "Request objects are fetched only from registered addresses", "statement": "A request by reference makes the provider fetch a request object only if the provider supports request_uri and the address, up to the fragment, is registered for the requesting client; otherwise the request is refused without fetching. Every address a client has registered can be used.", "quantifier": "all clients, addresses and requests", "why_tests_cant": "All addresses and registrations, and whatever would be found at the address.", "anchors": ["src/oidcendpoint/oauth2/authorization.py: Authorization._do_request_uri"]}
{"id": "C58", "title": "An authorization response says what was recorded", "statement": "After a successful authorization response the session's grant has exactly the code and the access token that are in the response added, with the type, source, time of issue and lifetime that the usage rules give; scope, resources, usage rules and expiry are those of the authorization; expires_in is the remaining lifetime; the client session notes the ID Token handed over; nothing else in the session store changes.", "quantifier": "all requests, session stores, usage rules, token handlers", "why_tests_cant": "All response types, stores and rules, and everything that must not change.", "anchors": ["src/oidcendpoint/oauth2/authorization.py: create_authn_response, post_authentication, mint_token", "src/oidcendpoint/authz/__init__.py: AuthzHandling.__call__"]}
{"id": "C59", "title": "A refused authorization is reported to the client", "statement": "When an authorization request of an authenticated user is refused, an error response with the state of the request is sent to the redirect URI of the request.", "quantifier": "all requests and reasons for refusal", "why_tests_cant": "All reasons for refusal.", "anchors": ["src/oidcendpoint/oauth2/authorization.py: error_response, post_authentication, authz_part2", "src/oidcendpoint/endpoint.py: do_response"]}
{"id": "C60", "title": "Registered encryption is applied", "statement": "ID Tokens and userinfo responses for a client that registered an encryption algorithm for them are encrypted with it.", "quantifier": "all clients, registrations, sessions", "why_tests_cant": "All registrations and payloads.", "anchors": ["src/oidcendpoint/id_token.py: IDToken.make, sign_encrypt, get_sign_and_encrypt_algorithms", "src/oidcendpoint/oidc/userinfo.py: UserInfo.do_response"]}
{"id": "C61", "title": "Clients with a logout URI get a session identifier", "statement": "If the provider supports back or front channel logout with session identifiers and the client registered a URI for it, the ID Tokens made for the client are issued and carry a sid from which the logout machinery finds the session.", "quantifier": "all clients with a logout URI, all sessions", "why_tests_cant": "All provider and client configurations.", "anchors": ["src/oidcendpoint/id_token.py: include_session_id, IDToken.make"]}
{"id": "C62", "title": "max_age is honoured", "statement": "If the client asks, in the request or the request object, for an authentication that is no older than max_age seconds, no session is used that rests on an older authentication; a younger one is as good as without max_age.", "quantifier": "all requests, cookies, ages and times", "why_tests_cant": "All ages and cookies.", "anchors": ["src/oidcendpoint/oauth2/authorization.py: max_age, setup_auth", "src/oidcendpoint/user_authn/user.py: UserAuthnMethod.authenticated_as"]}
{"id": "C63", "title": "The provider's session cookie is recognised", "statement": "A user who comes back with the cookie the provider set after the last authorization is recognised as long as that session is active; a cookie of a session that is over, or with a wrong signature, counts as no cookie.", "quantifier": "all sessions, cookies and requests", "why_tests_cant": "All session states and cookies.", "anchors": ["src/oidcendpoint/oauth2/authorization.py: setup_auth, create_session_cookie", "src/oidcendpoint/cookie.py: get_cookie_value", "src/oidcendpoint/user_authn/user.py: authenticated_as"]}
{"id": "C64", "title": "The supplied authentication methods recognise exactly the right users", "statement": "User name and password, Basic authentication and the symmetric key method accept a user exactly with the right credentials.", "quantifier": "all users, credentials and headers", "why_tests_cant": "All credentials.", "anchors": ["src/oidcendpoint/user_authn/user.py: UserPassJinja2.verify, BasicAuthn.authenticated_as, SymKeyAuthn.authenticated_as"]}
{"id": "C65", "title": "Hints about the user are honoured", "statement": "If the client names the user it wants to see, with an id_token_hint or a login_hint, no session of another user is used for the answer.", "quantifier": "all hints, users and session states", "why_tests_cant": "All hints and users.", "anchors": ["src/oidcendpoint/oauth2/authorization.py: setup_auth", "src/oidcendpoint/oidc/authorization.py: proposed_user, do_request_user", "src/oidcendpoint/login_hint.py"]}
{"id": "C66", "title": "The session belongs to the authenticated user and the client that asks", "statement": "The session that an authorization request goes on with is one of the client of the request and of the user an authentication method vouched for; a session that is there already is used again for its own request only, another request gets a session in which it is recorded.", "quantifier": "all requests, methods, identities and stores", "why_tests_cant": "All stores and identities.", "anchors": ["src/oidcendpoint/oauth2/authorization.py: setup_auth, process_request"]}
{"id": "C67", "title": "Every client is told about a logout, and the provider knows whether it was", "statement": "Logging the user out everywhere sends one logout token to each client with a back-channel logout URI and gives one frame for each other client with a front-channel URI, whatever the other clients' servers do; the caller learns which clients could not be logged out.", "quantifier": "all stores, registrations and answers of the clients' servers", "why_tests_cant": "All combinations of registrations and failing servers.", "anchors": ["src/oidcendpoint/oidc/session.py: do_verified_logout, logout_all_clients, do_back_channel_logout"]}
{"id": "C68", "title": "Front-channel logout frames address the registered URI", "statement": "A logout frame addresses the client's registered URI, with the issuer and the session as query parameters if the client requires them beside the registered ones, and says nothing else about the user.", "quantifier": "all registered URIs, issuers and session ids", "why_tests_cant": "All URIs.", "anchors": ["src/oidcendpoint/oidc/session.py: do_front_channel_logout_iframe, logout_all_clients"]}
{"id": "C69", "title": "The state of a logout request comes back", "statement": "If a logout request with a post_logout_redirect_uri has a state, the user comes back to that URI with the state as a query parameter.", "quantifier": "all end-session requests and registered URIs", "why_tests_cant": "All URIs and states.", "anchors": ["src/oidcendpoint/oidc/session.py: Session.process_request"]}
{"id": "C70", "title": "End-session requests are verified and accepted", "statement": "An end-session request is used only if it verifies (an id_token_hint with a supported algorithm), and a correct one is accepted, from an authenticated client where the endpoint is configured to authenticate clients.", "quantifier": "all requests, credentials and configurations of the endpoint", "why_tests_cant": "All configurations and requests.", "anchors": ["src/oidcendpoint/oidc/session.py: Session.parse_request", "src/oidcendpoint/endpoint.py: client_authentication"]}
{"id": "C71", "title": "Session ids in logout tokens can be read by the provider only", "statement": "The provider, and nobody else, can read the session id it has put in a logout token, also after a restart.", "quantifier": "all keys, initialisation vectors and session ids", "why_tests_cant": "All keys and ids; a restart between the two calls.", "anchors": ["src/oidcendpoint/oidc/session.py: Session.__init__, _encrypt_sid, _decrypt_sid"]}
{"id": "C72", "title": "Published addresses are where the endpoints are", "statement": "For every configuration the provider's metadata name each configured endpoint by the address it is served at (issuer, one slash, path), name no endpoint that is not configured, give the configured issuer and the address of the keys, and reading the metadata does not change them.", "quantifier": "all configurations (issuers with and without trailing slash, endpoints, paths, capabilities)", "why_tests_cant": "The metadata depend on all endpoints, their order and the capabilities together.", "anchors": ["src/oidcendpoint/util.py: build_endpoints", "src/oidcendpoint/endpoint_context.py: EndpointContext.__init__, do_endpoints, create_providerinfo", "src/oidcendpoint/oidc/provider_config.py: ProviderConfiguration"]}
{"id": "C73", "title": "Configured capabilities are published", "statement": "Whatever capability the operator configures is what the provider publishes and works with.", "quantifier": "all configurations and capabilities", "why_tests_cant": "All capabilities with all combinations of endpoints.", "anchors": ["src/oidcendpoint/endpoint_context.py: EndpointContext.do_endpoints, create_providerinfo", "src/oidcendpoint/id_token.py: IDToken.__init__"]}
{"id": "C74", "title": "Only supported algorithms are offered", "statement": "The algorithms a provider publishes are among those the crypto library supports, in the preferred order if nothing is configured; a provider told to offer others is not set up; \"none\" is never offered for client authentication at the token endpoint.", "quantifier": "all sets of supported algorithms, configurations and capabilities", "why_tests_cant": "All algorithm lists and configurations.", "anchors": ["src/oidcendpoint/endpoint.py: construct_endpoint_info, assign_algorithms, sort_sign_alg", "src/oidcendpoint/id_token.py: IDToken"]}
{"id": "C75", "title": "Optional parts of the configuration are optional", "statement": "A provider without handler for refresh tokens, or without capabilities, can be set up and serves requests.", "quantifier": "all configurations and requests", "why_tests_cant": "All configurations and later requests.", "anchors": ["src/oidcendpoint/util.py: allow_refresh_token", "src/oidcendpoint/endpoint_context.py: EndpointContext.__init__, do_endpoints", "src/oidcendpoint/oauth2/authorization.py: check_unknown_scopes_policy"]}
{"id": "C76", "title": "The published scopes are the ones one can get", "statement": "A scope a client can get by default is published, and a published scope the provider has claims for can be got.", "quantifier": "all configurations and scopes", "why_tests_cant": "All configurations of endpoints and capabilities.", "anchors": ["src/oidcendpoint/endpoint_context.py: create_providerinfo", "src/oidcendpoint/scopes.py: available_scopes", "src/oidcendpoint/oauth2/authorization.py: Authorization.default_capabilities, check_unknown_scopes_policy", "src/oidcendpoint/oauth2/pushed_authorization.py: PushedAuthorization"]}
{"id": "C77", "title": "TLS certificates are verified as configured", "statement": "Requests the provider makes leave the other side's certificate unverified only if the configuration says so, trust the configured authorities and present the configured client certificate.", "quantifier": "all configurations", "why_tests_cant": "All configurations.", "anchors": ["src/oidcendpoint/util.py: get_http_params", "src/oidcendpoint/endpoint_context.py: EndpointContext.__init__"]}
{"id": "C78", "title": "The key-value stores behave like a dictionary and are interchangeable", "statement": "For every history of calls the in-memory store and the shelf answer like a finite map from keys to values: what was stored last is found until it is deleted, values changed in place are seen by the next reader, keys lists what is stored, deleting removes. A ListDB behaves like a list of values.", "quantifier": "all histories of store calls, keys and values, all orders in which a file lists its keys", "why_tests_cant": "All histories; the stores differ only in corner cases (false values, in-place changes, missing keys).", "anchors": ["src/oidcendpoint/in_memory_db.py: InMemoryDataBase", "src/oidcendpoint/shelve_db.py: ShelveDataBase", "src/oidcendpoint/list_db.py: ListDB"]}
{"id": "C79", "title": "No access without a login", "statement": "Starting from a provider without sessions, after any sequence of authorization, token, userinfo and introspection requests, logouts, revocations and changes of the client database: every session belongs to a user who was recognised in an earlier authorization request of its client; every token of a session was made in such a visit, or by the token endpoint for an accepted request that presented an earlier value of the same session, or was given to nobody because the call failed. So the token endpoint hands out tokens, the userinfo endpoint claims, and introspection says active, only for sessions opened by their users, and the claims are those of that user.", "quantifier": "all sequences of calls on all endpoints in any order, all requests, clocks, client databases, users and token handlers whose values name well-formed sessions; token requests are processed at any time after they were parsed", "why_tests_cant": "It is about every history over all endpoints together; tests walk a few flows.", "anchors": ["src/oidcendpoint/oauth2/authorization.py: Authorization.process_request", "src/oidcendpoint/oidc/token.py: Token.process_request", "src/oidcendpoint/oidc/userinfo.py: UserInfo.process_request", "src/oidcendpoint/oauth2/introspection.py: Introspection.process_request", "src/oidcendpoint/oidc/session.py: Session.do_verified_logout", "src/oidcendpoint/session/manager.py: SessionManager"]}
{"id": "C80", "title": "Configured token lifetimes and keys are honoured", "statement": "Each token handler of a provider is of the kind it is configured for, has the configured lifetime (or the documented default), and the key with its name in the configured key set (or the configured password); without configuration codes live ten minutes, access tokens an hour and refresh tokens a day. A token is not accepted after the lifetime that is configured for its handler. A handler without any key or password is not set up.", "quantifier": "all configurations, key sets, classes, lifetimes, clocks and token values", "why_tests_cant": "Tests try a few configurations and never wait for a lifetime to pass; what is ignored does not show in them.", "anchors": ["src/oidcendpoint/endpoint_context.py: get_token_handlers", "src/oidcendpoint/token/handler.py: factory, init_token_handler, add_passwd, TokenHandler.info", "src/oidcendpoint/token/__init__.py: Token, DefaultToken.is_expired", "src/oidcendpoint/token/jwt_token.py: JWTToken"]}
{"id": "C81", "title": "The authorization code flow works", "statement": "When a recognised user is sent to the authorization endpoint with a well-formed request for a code, they are sent back to the registered address with a code. The client that presents the code in time, with the address and the code verifier that belong to it, gets an access token. With that token the userinfo endpoint answers, as long as token and authentication last, with the subject of the session and exactly those claims that are wanted by the request, by the scopes or by the configuration, and that the user has. What happens in between to other sessions and other clients does not matter.", "quantifier": "all configurations that meet the stated conditions, users, clients, requests, token handlers, clocks, usage rules, contents of the stores, and anything done in between that does not touch the session or the client", "why_tests_cant": "Tests run the flow with one configuration, one user and one client on an empty store; that it works for every configuration and whatever else is stored or happens in between is not visible in them.", "anchors": ["src/oidcendpoint/oauth2/authorization.py: Authorization.process_request, setup_auth, authz_part2, post_authentication, create_authn_response", "src/oidcendpoint/authz/__init__.py: AuthzHandling.__call__", "src/oidcendpoint/oidc/token.py: Token, AccessTokenHelper", "src/oidcendpoint/oidc/add_on/pkce.py: post_token_parse", "src/oidcendpoint/oidc/userinfo.py: UserInfo.process_request", "src/oidcendpoint/session/claims.py: ClaimsInterface.get_claims"]}
{"id": "C82", "title": "Sessions are isolated from each other at all endpoints", "statement": "Whatever other users do, and whatever the same user does with other clients, at the authorization, token, userinfo, introspection and logout endpoints, and whichever of their sessions and tokens are revoked or removed, the sessions of a user at a client stay exactly as they are: none appears, disappears or changes, and the userinfo and introspection endpoints say the same about their tokens. A code flow that is under way is completed as if it were alone.", "quantifier": "all configurations, users, clients, states that can be reached, and all finite sequences of calls that are not about the sessions of this user at this client", "why_tests_cant": "Tests run one flow at a time on an empty store; interference needs arbitrary interleavings of calls about other sessions.", "anchors": ["src/oidcendpoint/session/manager.py: SessionManager", "src/oidcendpoint/session/database.py: Database", "src/oidcendpoint/oauth2/authorization.py: Authorization.process_request", "src/oidcendpoint/oidc/token.py: Token.process_request", "src/oidcendpoint/oidc/userinfo.py: UserInfo.process_request", "src/oidcendpoint/oidc/session.py: Session.logout_all_clients, logout_from_client", "src/oidcendpoint/oauth2/introspection.py: Introspection.process_request"]}
{"id": "C83", "title": "Without a configured authorization the provider works by defaults", "statement": "A provider for which no authorization handler is configured serves the code flow, and its default handler grants a recognised user's clients the scopes and the claims they ask for and may have, and can be given usage rules and a lifetime.", "quantifier": "all configurations without authorization handler, users, clients and requests, and all finite sequences of calls of all endpoints; for the configuration of the default handler: all of them", "why_tests_cant": "That nothing is ever granted, whatever is asked for and whatever happens before, is a statement about all requests and histories.", "anchors": ["src/oidcendpoint/endpoint_context.py: EndpointContext.do_authz", "src/oidcendpoint/authz/__init__.py: Implicit.__call__", "src/oidcendpoint/oidc/userinfo.py: UserInfo.process_request", "src/oidcendpoint/oauth2/introspection.py: Introspection.process_request", "src/oidcendpoint/oidc/token.py: AccessTokenHelper.process_request"]}
{"id": "C84", "title": "What is over stays over, at all endpoints", "statement": "In the whole life of a provider at most one token request with a given authorization code is answered with tokens. What is taken for a code is a usable code, for a refresh token a usable refresh token, of a session with a usable grant; with PKCE, the verifier was shown. A token that is revoked, expired or used up is honoured by no endpoint from then on, and no tokens are given any more for what was issued under a revoked grant. Nothing that any endpoint does undoes a usage count, a revocation or the authorization request of a session.", "quantifier": "all configurations, all users and clients, and all finite sequences of calls of the authorization, token, userinfo, introspection and logout endpoints, of revocations and of changes to the client database, in which new sessions get new ids; parsing and processing of a token request are separate calls", "why_tests_cant": "It must hold whatever is called in between, in any order and number, with any arguments.", "anchors": ["src/oidcendpoint/oidc/token.py: AccessTokenHelper, RefreshTokenHelper", "src/oidcendpoint/session/grant.py: Grant", "src/oidcendpoint/session/token.py: Item.is_active", "src/oidcendpoint/session/manager.py: SessionManager", "src/oidcendpoint/oauth2/authorization.py: Authorization", "src/oidcendpoint/oidc/userinfo.py: UserInfo", "src/oidcendpoint/oauth2/introspection.py: Introspection", "src/oidcendpoint/oidc/session.py: Session"]}
{"id": "C85", "title": "What it takes to get claims from the userinfo endpoint", "statement": "Claims are given only to a request that presents a usable access token as a bearer token in the place where the endpoint is set up to look for one; they are those of the user of the token's session, and no request changes a session. A usable access token in the Authorization header gets all granted claims; without one, with an unusable one, or with one of which the provider knows nothing, the request is refused with an error message. If the request names a client, it is the client the token was issued to.", "quantifier": "all requests and authorization headers, all sets of authentication methods of the endpoint, all sessions, client and user databases, all ways in which a token value can fail to be read", "why_tests_cant": "All combinations of header, body, methods and state of the session behind the token.", "anchors": ["src/oidcendpoint/oidc/userinfo.py: UserInfo.parse_request, UserInfo.get_client_id_from_token, UserInfo.process_request, UserInfo.do_response", "src/oidcendpoint/endpoint.py: Endpoint.client_authentication", "src/oidcendpoint/client_authn.py: verify_client, BearerHeader, BearerBody"]}
{"id": "C86", "title": "Who is served by the token and the introspection endpoint", "statement": "Where an endpoint is set up with client secrets or assertions, tokens are given, and tokens are introspected, only for a request that shows the credentials of a registered client; tokens only for a usable code or refresh token of a session with a usable grant, and only a usable access or refresh token is reported as active. A request without such credentials gets an error message and changes nothing. Wrong credentials are never ignored. A client is told only about its own tokens. A request that is not well formed is refused and changes no session. Where an assertion is asked for, an assertion with an id is good for one request, whatever happens in between.", "quantifier": "all requests and authorization headers, all sets of authentication methods, all sessions and client databases, all behaviours of the check of request messages that keep the members read", "why_tests_cant": "All combinations of credentials, methods, requests and states of sessions.", "anchors": ["src/oidcendpoint/endpoint.py: Endpoint.parse_request, Endpoint.client_authentication, Endpoint.__init__", "src/oidcendpoint/client_authn.py: verify_client", "src/oidcendpoint/oidc/token.py: Token.process_request", "src/oidcendpoint/oauth2/introspection.py: Introspection.process_request"]}
{"id": "C87", "title": "A client with a refresh token can go on, with the newest one", "statement": "A client that has got a refresh token - by a code flow with offline access, say - gets a new access token and a new refresh token for it, and so on with the new one, any number of times, as long as each comes back within its lifetime, the usage rules allow it and the grant lasts; what other clients and users do in between makes no difference. A refresh token that has been exchanged for a new one is not accepted any more.", "quantifier": "all sessions, configurations, lifetimes, numbers of rounds, token values and everything that happens in between without touching the session", "why_tests_cant": "Any number of rounds, any interleaving and all configurations.", "anchors": ["src/oidcendpoint/oidc/token.py: RefreshTokenHelper, AccessTokenHelper, Token.process_request", "src/oidcendpoint/session/grant.py: Grant.mint_token", "src/oidcendpoint/session/token.py: RefreshToken", "src/oidcendpoint/oauth2/authorization.py: Authorization.process_request"]}
{"id": "C88", "title": "The configured login methods are there, and a login form is checked by the method that showed it", "statement": "Every login method of the configuration is set up as configured, arguments with a default may be left out, and the methods are found under their class in the order of the configuration. A user who has to log in is shown the page of one of these methods, which carries the authorization request and the links of the client. A form sent from that page logs in exactly the users whose password is right in the user database of that method.", "quantifier": "all configurations, clients, requests, user databases and forms", "why_tests_cant": "All configurations of several methods and all forms.", "anchors": ["src/oidcendpoint/user_authn/authn_context.py: init_method, populate_authn_broker", "src/oidcendpoint/endpoint_context.py: do_authentication", "src/oidcendpoint/user_authn/user.py: UserPassJinja2, create_signed_jwt, verify_signed_jwt", "src/oidcendpoint/oauth2/authorization.py: authn_args_gather, pick_authn_method"]}
{"id": "C89", "title": "What a provider leaves behind when it stops in the middle of a call", "statement": "When the provider stops at any point within a call and is started again on its storage, then of the sessions either nothing of the call is seen or all of it; a removal that was cut can be asked for again; a cut code exchange has changed nothing but the session of the code, and the code is either as it was or the exchange is complete; and over any history with such stops a code is redeemed at most once and a revoked grant stays revoked.", "quantifier": "all storages, calls, points within a call (between any two accesses to the storage), and histories with any number of stops", "why_tests_cant": "All crash points of all calls in all states.", "anchors": ["src/oidcendpoint/session/database.py: set, get, delete, update", "src/oidcendpoint/session/manager.py: create_session, create_grant, add_grant, revoke_client_session, revoke_grant, revoke_token, remove_session", "src/oidcendpoint/oidc/token.py: AccessToken.process_request, RefreshToken.process_request", "src/oidcendpoint/oauth2/authorization.py: mint_token"]}
{"id": "C90", "title": "Workers that share a storage", "statement": "When several workers serve requests from one storage, in whatever order their accesses to it come, then calls about different users do not disturb each other: each gets the answers it would get alone and leaves the sessions of its user as it alone would. Who reads a record while a call is changing it sees it as it was before or as it is after. Calls about the same user have the effect of one being made after the other: no log-in is lost, no revocation undone, no code redeemed twice.", "quantifier": "all storages, any number of workers with any lists of calls, all schedules (orders of the single accesses to the storage)", "why_tests_cant": "All interleavings of all calls in all states.", "anchors": ["src/oidcendpoint/session/database.py: set, get, delete, update", "src/oidcendpoint/session/manager.py: create_session, revoke_grant, remove_session", "src/oidcendpoint/oidc/token.py: AccessToken.process_request, RefreshToken.process_request", "src/oidcendpoint/oauth2/authorization.py: mint_token"]}
{"id": "C91", "title": "The configured helpers are the ones used", "statement": "The helpers named in the configuration - authorization, ID Token maker, source of users, subject identifier functions, cookie dealer, login hint helpers, scopes handler and add-ons - are those the provider works with: instances of the named class made with the given arguments, and the supplied ones where nothing is configured. Both ways of naming a class (module.name and module:name) are understood. A file of users is found in the directory the provider is given. A configuration can be used again.", "quantifier": "all configurations of helpers, whatever classes and objects they name, all directories", "why_tests_cant": "All configurations, and all classes one may name in them.", "anchors": ["src/oidcendpoint/endpoint_context.py: init_user_info, init_service, do_sub_func, do_userinfo, do_authz, do_id_token, do_cookie_dealer, do_login_hint_lookup, do_login_hint2acrs, do_add_on, set_scopes_handler", "src/oidcendpoint/util.py: modsplit, importer", "src/oidcendpoint/session/manager.py: SessionManager.__init__"]}
{"id": "C92", "title": "Hints lead to the user and the login they stand for", "statement": "A login hint with a phone number stands for the user who has that number and for no one else; the lookup works on the users of the provider. A search for users by attributes gives the first user whose record has them all. A login hint whose scheme is configured with authentication classes leads to the first of these classes for which there is a login method, and to the default otherwise.", "quantifier": "all user databases, hints, configured schemes and registries of login methods", "why_tests_cant": "All records, hints and registries.", "anchors": ["src/oidcendpoint/login_hint.py: LoginHintLookup, LoginHint2Acrs", "src/oidcendpoint/user_info/__init__.py: dict_subset, UserInfo.search", "src/oidcendpoint/endpoint_context.py: do_login_hint_lookup", "src/oidcendpoint/user_authn/authn_context.py: pick_auth"]}
{"id": "C93", "title": "The implicit and hybrid flows work", "statement": "When a recognised user is sent to the authorization endpoint with a well-formed request for any combination of a code, an access token and an ID Token, they are sent back to the registered address with exactly these, in the fragment unless it is a code alone, and the code and token belong to the user's new session with the client. The access token can be used at the userinfo endpoint right away, as long as it and the authentication last: the answer has the subject of the session and exactly the claims that are wanted and that the user has. A code that came along can be exchanged at the token endpoint as usual, although an access token was made from it already, and the second access token works as well.", "quantifier": "all configurations that meet the stated conditions, users, clients, requests, combinations and orders of response types, response modes, token handlers, clocks, usage rules, contents of the stores, and anything done in between that does not touch the session or the client", "why_tests_cant": "Tests run one or two response types with one configuration on an empty store; that every combination works, for every configuration and whatever else is stored, is not visible in them.", "anchors": ["src/oidcendpoint/oauth2/authorization.py: Authorization.create_authn_response, post_authentication, authz_part2, response_mode, mint_token", "src/oidcendpoint/oidc/token.py: Token, AccessTokenHelper", "src/oidcendpoint/oidc/userinfo.py: UserInfo.process_request", "src/oidcendpoint/session/grant.py: Grant.mint_token"]}
{"id": "C94", "title": "Request objects are held to the client's algorithms", "statement": "A request object fetched by reference is taken only if it is signed with exactly the algorithm the client registered for request objects, or, if the client registered none, with one of those the provider supports; likewise, if it is encrypted, the key and content encryption algorithms used must be the registered ones or supported ones. An object that meets this is not turned away because of its algorithms.", "quantifier": "all request objects, headers, clients, registrations and provider metadata", "why_tests_cant": "All combinations of headers, registrations and metadata; no test registers an algorithm for request objects or encrypts one.", "anchors": ["src/oidcendpoint/oauth2/authorization.py: AllowedAlgorithms, ALG_PARAMS, Authorization._do_request_uri"]}
{"id": "C95", "title": "The flows work from the received requests on", "statement": "When a recognised user's browser brings a well-formed authorization request of a registered client to the provider, with or without PKCE, the request passes parsing unchanged, apart from the challenge method PKCE assumes, and the answer is a redirect to the client's registered address with the code, or whatever else was asked for, and the client's state. The client then sends a token request with the code and its secret, in the Authorization header or in the body, and gets an access token; with that in the Authorization header of a userinfo request it gets the subject of the session and exactly the claims that are wanted and that the user has. An access token that came with the authorization response works in the same way.", "quantifier": "all configurations that meet the stated conditions, users, clients and their secrets, requests, PKCE settings, response types, contents of the stores, clocks, and anything done in between that does not touch the session and, in the client's record, only notes how the client has authenticated", "why_tests_cant": "The tests call parse_request and process_request of one endpoint at a time with one client; that the steps of client authentication, parsing, PKCE and processing fit together for every configuration and every content of the stores is not visible in them.", "anchors": ["src/oidcendpoint/endpoint.py: Endpoint.parse_request, client_authentication, do_post_parse_request", "src/oidcendpoint/oauth2/authorization.py: Authorization.process_request", "src/oidcendpoint/oidc/add_on/pkce.py: post_authn_parse, post_token_parse", "src/oidcendpoint/oidc/token.py: Token", "src/oidcendpoint/oidc/userinfo.py: UserInfo.parse_request, process_request", "src/oidcendpoint/client_authn.py: verify_client, ClientSecretBasic, ClientSecretPost"]}
{"id": "C96", "title": "A client that registers can use the provider", "statement": "A registration request that keeps to the rules is accepted, and the response holds the new client's id and secret. With these, until the secret expires, and with every address and response type it has registered, the client can go through the code flow: its authorization requests are accepted, the code comes to the address, the secret is accepted at the token endpoint, and the access token gives the claims of the user. Nothing else in the provider changes by the registration.", "quantifier": "all provider configurations, registration requests that meet the stated conditions, addresses registered, ids, secrets and times drawn, contents of the client database, and all flows C95 is about", "why_tests_cant": "The tests register one client with one set of addresses, and use clients from configuration in the flows; that what registration writes is what the other endpoints read, for every request, is nowhere tested.", "anchors": ["src/oidcendpoint/oidc/registration.py: Registration.client_registration_setup, do_client_registration, match_client_request, verify_redirect_uris", "src/oidcendpoint/oauth2/authorization.py: verify_uri, get_uri, Authorization.process_request", "src/oidcendpoint/client_authn.py: verify_client, valid_client_info"]}
{"id": "C97", "title": "No access without a login, from the received requests on", "statement": "Starting from a provider without sessions, whatever authorization, pushed, token, userinfo and introspection requests it receives, in any order, and whatever logouts, revocations and changes of the client database happen in between: every session belongs to a user who was recognised in an earlier received authorization request, understood as one of the session's client, which was registered at that time. Every token of a session was made in such a visit, or by the token endpoint for a received request that presented an earlier value of the same session and, if the endpoint asks for credentials, showed those of a registered client; or it was given to nobody because the call failed. So the token endpoint hands out tokens, the userinfo endpoint claims and the introspection endpoint the answer that a token is active only for sessions opened by their users; the claims are those of the user, for the bearer of an access token; and while nobody has been recognised there is nothing to get.", "quantifier": "all sequences of received requests at all endpoints, with any client authentication methods configured at each, all clocks, keys, fetched request objects, client databases, users and token handlers whose values name well-formed sessions", "why_tests_cant": "It is about every history of received requests over all endpoints together, with client authentication and parsing; tests walk a few flows, mostly past the client authentication.", "anchors": ["src/oidcendpoint/endpoint.py: Endpoint.parse_request, client_authentication, do_post_parse_request", "src/oidcendpoint/oauth2/authorization.py: Authorization", "src/oidcendpoint/oauth2/pushed_authorization.py: PushedAuthorization", "src/oidcendpoint/oidc/token.py: Token", "src/oidcendpoint/oidc/userinfo.py: UserInfo", "src/oidcendpoint/oauth2/introspection.py: Introspection", "src/oidcendpoint/client_authn.py: verify_client"]}
{"id": "C98", "title": "What is over stays over, from the received requests on", "statement": "Starting from a provider without sessions, whatever requests its endpoints receive, in any order, with parsing and client authentication: at most one received token request with a given authorization code is answered with tokens. What is taken for a code (or refresh token) is a usable code (or refresh token) of a session with a usable grant, and with PKCE the verifier of the challenge came with it. Once a token is revoked, expired or used up, no received request is a success for whoever comes with it: no tokens are given for it, no claims are released for it, it is not said to be active. No received token request gets tokens for a value of a revoked session.", "quantifier": "all sequences of received requests at the authorization, pushed authorization, token, userinfo and introspection endpoints, of logouts, revocations and changes of the client database, with any client authentication methods configured, in which new sessions get new ids; all configurations, clocks, users and clients", "why_tests_cant": "It must hold whatever arrives in between, in any order and number, from whomever; tests replay one code once, mostly past the client authentication.", "anchors": ["src/oidcendpoint/endpoint.py: Endpoint.parse_request, client_authentication, do_post_parse_request", "src/oidcendpoint/oidc/token.py: Token, AccessTokenHelper, RefreshTokenHelper", "src/oidcendpoint/session/grant.py: Grant", "src/oidcendpoint/session/token.py: Item.is_active", "src/oidcendpoint/oidc/userinfo.py: UserInfo", "src/oidcendpoint/oauth2/introspection.py: Introspection", "src/oidcendpoint/client_authn.py: verify_client"]}
{"id": "C99", "title": "Scopes of one's own mean what is configured and take nothing away", "statement": "With the add-on for custom scopes, every scope of one's own stands for the claims configured for it and all other scopes stand for what they stood for. The metadata list them and their claims besides what they listed. Every client without a list of scopes of its own may use them, and may still use what it could use; a client with a list is held to its list. A client that asks for one of them gets the claims configured for it wherever scopes stand for claims, the policy for unknown scopes knows them, and the add-on can be used more than once.", "quantifier": "all configurations, tables of scopes, sets of custom scopes, clients, lists of requested scopes and usages of claims", "why_tests_cant": "It ranges over all configurations and all interplays with published scopes, client lists and the policy for unknown scopes; tests use one configuration that publishes scopes.", "anchors": ["src/oidcendpoint/oidc/add_on/custom_scopes.py: add_custom_scopes", "src/oidcendpoint/scopes.py: convert_scopes2claims, Scopes.filter_scopes", "src/oidcendpoint/session/claims.py: ClaimsInterface.get_claims", "src/oidcendpoint/oauth2/authorization.py: check_unknown_scopes_policy"]}
{"id": "C100", "title": "Looking sessions up is faithful", "statement": "The lookups of the session manager answer what is stored, change nothing, and raise for a session of another kind or none: the information about a user or a client session, a grant, a token of a grant (the first issued with that value), the grants of a user at a client in their order, the authentication events, the session information with exactly the parts asked for, also by a token. What applies to a token (scope, resources, claims) is its own where it has its own and the grant's otherwise, and is given only for what is active. A grant that is added is listed once, and one that is removed is listed no more.", "quantifier": "all stores, user, client and grant ids, token values, combinations of the parts asked for, and all grants and tokens", "why_tests_cant": "It ranges over all stores and all combinations of the optional parts; tests look up what they have just stored, one part at a time.", "anchors": ["src/oidcendpoint/session/manager.py: get_user_info, find_token, get_client_session_info, get_user_session_info, get_grant, grants, get_authentication_event, get_session_info, get_session_info_by_token, add_grant, remove_session", "src/oidcendpoint/session/grant.py: Grant.get_spec"]}
{"id": "C101", "title": "What is put into a token", "statement": "A token tells the scope and the audience of its grant. An access token tells besides that the claims wanted in access tokens that the user has, with their values, and no other claims; codes and refresh tokens tell no claims. The value of a minted token is what its handler makes of this, for its session and lifetime.", "quantifier": "all users, claims requests, scopes, grants, clients, types of tokens and token handlers, whatever the cipher or JWT library does", "why_tests_cant": "It ranges over all users' attributes and all ways claims are asked for; tests use one user whose attributes have no special names.", "anchors": ["src/oidcendpoint/session/grant.py: Grant.payload_arguments, mint_token", "src/oidcendpoint/session/claims.py: ClaimsInterface", "src/oidcendpoint/token/__init__.py: DefaultToken", "src/oidcendpoint/token/jwt_token.py: JWTToken"]}
{"id": "C102", "title": "What refused token requests get", "statement": "A token request that is not served is answered with an error message, and leaves sessions and tokens as they were: without a code, with a code or refresh token that is unknown, expired, used up, of another type or of a session that is over, without the PKCE verifier or with a wrong one, with another redirection address than the authorization request had, for a session that has been revoked, or when the ID Token cannot be made.", "quantifier": "all requests, states of the sessions, token handlers, usage rules, times, verifiers and challenges", "why_tests_cant": "Each kind of refusal has its own path through parsing, add-on and processing, and each depends on the state of the session; tests cover a few of them, with tokens that the handler knows and strings that are ASCII.", "anchors": ["src/oidcendpoint/oidc/token.py: AccessTokenHelper, RefreshTokenHelper (post_parse_request, process_request), Token", "src/oidcendpoint/oidc/add_on/pkce.py: post_token_parse, verify_code_challenge", "src/oidcendpoint/session/manager.py: get_session_info_by_token", "src/oidcendpoint/session/database.py: Database.get"]}
{"id": "C103", "title": "Sessions are isolated from each other, from the received requests on", "statement": "What the endpoints receive about other sessions than those of one user at one client leaves all of the latter's sessions exactly as they are, and what the userinfo and the introspection endpoint answer about their tokens. So the code flow works from the received requests on, whatever else arrives between its requests: other users' logins with the same client, other clients' requests, refused requests, logouts, revocations, registrations.", "quantifier": "all sequences of received requests, logouts, revocations and changes of the client database, before and between the requests of a flow, all users, clients, configurations of the endpoints' gates and token handlers", "why_tests_cant": "Tests run one flow at a time on a fresh provider; the claim is about everything that can arrive in between.", "anchors": ["src/oidcendpoint/endpoint.py: Endpoint.parse_request, client_authentication", "src/oidcendpoint/client_authn.py: verify_client", "src/oidcendpoint/oauth2/authorization.py: Authorization", "src/oidcendpoint/oidc/token.py: Token", "src/oidcendpoint/oidc/userinfo.py: UserInfo", "src/oidcendpoint/oauth2/introspection.py: Introspection", "src/oidcendpoint/session/manager.py: SessionManager"]}
{"id": "C104", "title": "A client goes on refreshing, from the received requests on", "statement": "A client that asked for offline access gets a refresh token with its code, and goes on with it: each time it presents, with its secret, the refresh token of the time before, it gets an access token of the same session and a new refresh token, whatever else arrives at the provider in between that is not about the sessions of this user at this client. This holds for any number of rounds the usage rules and lifetimes leave room for, and whatever add-ons are configured.", "quantifier": "all numbers of rounds, all sequences of received requests, logouts, revocations and changes of the client database before and between the rounds, all users, clients, usage rules, token handlers and configurations of the endpoints' gates", "why_tests_cant": "Tests refresh once on a fresh provider; the claim is about any number of rounds and everything that can arrive in between.", "anchors": ["src/oidcendpoint/oidc/token.py: RefreshTokenHelper, AccessTokenHelper, Token", "src/oidcendpoint/endpoint.py: Endpoint.parse_request, client_authentication", "src/oidcendpoint/client_authn.py: verify_client", "src/oidcendpoint/oidc/add_on/pkce.py: post_token_parse", "src/oidcendpoint/session/grant.py: Grant.mint_token"]}
{"id": "C105", "title": "Single sign-on", "statement": "A user who has got an authorization response and comes back with the cookie that was set with it is recognised at the next authorization request, of the same client or of another one, and need not log in again, as long as the session is active and the authentication is not older than the client wants. When it is, the user is asked to log in. The request never ends in an exception.", "quantifier": "all authorization responses, users, clients, sessions, keys of the cookies, times, further authorization requests of any client, states of the session database, and login methods that go by the cookie", "why_tests_cant": "Tests hand the endpoint a cookie made for the test or none at all; the claim ties the cookie of any response to what any later request, of any client and at any time, gets.", "anchors": ["src/oidcendpoint/oauth2/authorization.py: Authorization.setup_auth, process_request, authz_part2", "src/oidcendpoint/cookie.py: new_cookie, CookieDealer.create_cookie, CookieDealer.get_cookie_value", "src/oidcendpoint/user_authn/user.py: UserAuthnMethod.authenticated_as, NoAuthn.authenticated_as"]}
{"id": "C106", "title": "What is registered of a client lasts", "statement": "No request that is received, at whatever endpoint and in whatever order, adds or removes a client or changes what is registered of one (its addresses, secret, response types, scopes, algorithms, expiry), except for the note how the client has authenticated; registering further clients leaves the others as they are.", "quantifier": "all sequences of received requests (authorization, pushed, token, userinfo, introspection), logouts, revocations and registrations, all clients, states and configurations", "why_tests_cant": "Tests look at single calls and at the entries they are about; the claim is about every entry after any history, and the claims of a client are handed out by reference.", "anchors": ["src/oidcendpoint/client_authn.py: verify_client", "src/oidcendpoint/session/claims.py: ClaimsInterface.get_claims", "src/oidcendpoint/oauth2/authorization.py: Authorization.process_request", "src/oidcendpoint/oidc/token.py: Token.process_request", "src/oidcendpoint/oidc/registration.py: Registration.client_registration_setup"]}
{"id": "C107", "title": "Which usage rules are in force", "statement": "The usage rules looked up for a type of token are decided member by member: the rules of the grant come first, then those of the client, then those the provider is configured with; the built-in defaults are used when neither the client nor the provider says anything for the type. Rules are found for every type that has some. Looking rules up changes nothing: not the defaults, not the client's record, so what one grant says has no effect on the tokens of others.", "quantifier": "all token types, grants with any rules, clients, provider configurations, default tables and sequences of lookups", "why_tests_cant": "Tests look up rules for one configuration at a time and do not look at what a lookup leaves behind; the claim is about every combination of grant, client, provider and default and about every later lookup.", "anchors": ["src/oidcendpoint/session/grant.py: get_usage_rules, DEFAULT_USAGE", "src/oidcendpoint/authz/__init__.py: AuthzHandling.usage_rules, AuthzHandling.usage_rules_for"]}
{"id": "C108", "title": "An added grant has what is given for it", "statement": "A grant that is added to a user's session with the session manager is made with everything that is given for it: each argument that a grant can have gets through unchanged, nothing is made up, and an argument that a grant cannot have is not silently taken for another.", "quantifier": "all sets of keyword arguments", "why_tests_cant": "Tests add grants with one or two arguments; the claim is about every argument and every combination.", "anchors": ["src/oidcendpoint/session/manager.py: SessionManager.add_grant", "src/oidcendpoint/session/grant.py: Grant.attributes, Grant.__init__, ExchangeGrant.attributes"]}
{"id": "C109", "title": "No scope that was not asked for, from the received requests on", "statement": "Whatever requests a provider that starts without sessions receives, in any order, and whatever logouts, revocations and changes of the client database happen in between: the scope of a session is empty or the scope of a received authorization request of the session's client, which came in the visit in which the user opened the session or in a visit by someone whose identity names the session. What the token endpoint says of the scope of the tokens it hands out, for a code or a refresh token, is such a scope of the session which the presented value goes back to, and so is what introspection says of the scope of a token, as long as no user has an attribute called scope: no client gets a scope from another client's request, from another user's session or from the token request.", "quantifier": "all sequences of received requests at all endpoints, with any client authentication methods, any scopes in any of the requests, and any logouts, revocations and changes of the client database between them", "why_tests_cant": "Tests ask for one scope in one session and compare; the claim is about every history of requests, in which sessions of many users and clients are opened, used, refreshed and opened again.", "anchors": ["src/oidcendpoint/authz/__init__.py: AuthzHandling.__call__", "src/oidcendpoint/oidc/token.py: AccessTokenHelper.process_request, RefreshTokenHelper.process_request", "src/oidcendpoint/session/manager.py: SessionManager.create_grant", "src/oidcendpoint/oauth2/authorization.py: Authorization.process_request"]}
{"id": "C110", "title": "The other addresses of a registered client are checked", "statement": "After a successful registration the pages about the client that are shown to users (policy, logo, terms of service) are of the site of one of its redirect URIs; no address to go to after a logout has a fragment, all are recorded and shown in the answer, and each of them, and no other, can be where the user is sent after logging out from a session with the client; no request URI has a query, and the answer shows all as they were given; and the sector of the client is the URI of a list that names all its redirect URIs.", "quantifier": "all registration requests, states of the provider, configurations and URI parsers", "why_tests_cant": "Tests register one or two clients with fixed addresses; the claim is about every combination of addresses and every order of the checks.", "anchors": ["src/oidcendpoint/oidc/registration.py: Registration.do_client_registration, Registration._verify_sector_identifier, verify_url, comb_uri", "src/oidcendpoint/oidc/session.py: Session.process_request"]}
{"id": "C111", "title": "A client's registration does not decide what the client may use", "statement": "Which scopes a client that has registered dynamically may use, which claims it is given without a scope or request for them, and how long its tokens live is decided by the provider's configuration and not by what the client's registration request says of allowed scopes, of claims and of usage rules.", "quantifier": "all registration requests, provider configurations, requested scopes and claims, histories of tokens made", "why_tests_cant": "Needs every registration request, with any members at all, before every later request.", "anchors": ["src/oidcendpoint/oidc/registration.py: Registration.do_client_registration, Registration.client_registration_setup", "src/oidcendpoint/scopes.py: Scopes.allowed_scopes, Scopes.filter_scopes", "src/oidcendpoint/oauth2/authorization.py: check_unknown_scopes_policy", "src/oidcendpoint/session/claims.py: ClaimsInterface._get_client_claims, get_claims", "src/oidcendpoint/authz/__init__.py: AuthzHandling.usage_rules"]}
