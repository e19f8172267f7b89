# Formal model of oidcendpoint: design

Source modelled: `/repo/src/oidcendpoint` (read as text, never run).
Model and proofs: `rocq/theories/*.v`, logical name `Verif`, Coq 8.16.1, standard library only.

## 1. How Python is modelled

* **Functions** become total Gallina functions mirroring the Python branch by branch.
  Every definition carries a comment with file and lines.
* **Exceptions** are values: `result A := Ok a | Raise e`. For code with side effects the
  state reached when the exception is raised is kept (`M A := world -> result A * world`),
  because "what is left behind by a request that failed half way" is a property of interest.
* **dict** is an insertion ordered association list (`dict A := list (string * A)`), with
  `dset` replacing in place or appending, as CPython does.
* **str** is Coq `string` (8-bit characters). Simplification: code points above 255 are
  not represented; no modelled function treats them specially.
* **Objects** stored in the session store. Python's in-memory store shares objects with the
  callers; a serialising store (`session/storage.py`) hands out fresh copies. The model has one
  store type with a flag saying which of the two it is; each in-place mutation of an object
  obtained from the store is an explicit `poke`, effective only for the sharing store.
* **Time** is an explicit `Z` argument or a field of the world.
* **Randomness** (uuid, rndstr) is a supply of numbers in the world, injected into strings by
  an abstract injective function.
* **Cryptography, JWT, urllib, hashing** are fields of an environment record or section
  variables, with their assumed laws stated as explicit hypotheses of the theorems. Nothing is
  an `Axiom`. Toy instances satisfying the laws are given, so that the hypotheses are
  known to be satisfiable.

## 2. Layout

`X.v` holds a model, `XProofs.v` lemmas, `XSpec.v` (where needed) the independent
specification, `Props*.v` only `Theorem` / `exact` / `Print Assumptions`, and the `Example`s
showing that the hypotheses are met.

## 3. Plan per property

| Id | Modelled | Proof idea |
|----|----------|-----------|
| C01 | `session_key`, `unpack_session_key` | split/join are inverse exactly on separator-free ids (iff); counterexample otherwise |
| C02 | `Database.set/get` | refinement of the flat keyed dict to a path-indexed map |
| C03 | `create_session`, `create_grant` | frame theorem for other (user, client); refuted for the same pair |
| C04 | `Database.delete` | frame theorem; refuted: line 132 writes to key `client_id` |
| C05 | manager operations | invariant over histories, fresh grant ids |
| C06 | token endpoint parse / process as separate steps | invariant over all histories; finer grained schedule refuted |
| C07 | `Grant.revoke_token`, `SessionManager.revoke_token` | inductive `descends`; exact characterisation on grants built by minting |
| C08 | all operations on tokens | monotonicity preorder on stores, preserved by each operation |
| C09 | revoke_grant, revoke_client_session, endpoints | refuted (witness), minting part proved |
| C10 | `mint_token` | invariant over mint histories |
| C11 | `Item` | decision theorem (iff) |
| C12 | token endpoint pipeline; the whole flow from the received requests on (`PropsThief.v`) | refuted with witness; what is bound is proved; any other client that authenticates as itself can use a code and gets the user's claims |
| C13 | `AccessTokenHelper.process_request` | decision theorem; over all that is received: C13_received |
| C14, C15 | `pkce.py` in the pipeline; histories of received requests (`PropsPkceReceived.v`) | decision theorem; no tokens for a code without a verifier that answers the challenge the user's visit came with; C15 refuted |
| C16 | endpoints | decision theorems |
| C17 | `userinfo`, `claims.py` | characterisation of the released dict |
| C18 | `get_claims`, `AuthzHandling` with the aliasing made explicit | refuted; proved when per-client claims are not dict valued |
| C19, C60, C61 | `IDToken.payload`, `sign_encrypt`, `make`, at both endpoints | exact contents of the payload; refuted where hashes, encryption and session ids are missing |
| C20 | `verify_uri`, `get_uri`, `split_uri` (urllib modelled), the parsing of requests | soundness proved, also for every request that is let through (C20_parsed) and for every response to whatever is received (C20_received) and every login page (C20_login), completeness refuted + first-match characterisation |
| C21, C22 | `verify_response_type`, `create_authn_response`, `response_mode` | decision theorems |
| C23, C24 | `client_authn.py` | soundness; C24 refuted when `none` is allowed |
| C25 | `JWSAuthnMethod.verify` with the jti store | history invariant; refuted without jti and for colliding keys |
| C26, C27 | `registration.py` | frame + policy theorems; atomicity and mass assignment refuted |
| C28 | `read_registration.py`, bearer methods | decision theorem |
| C29 | PAR store; the endpoint from the received request on (`PropsPushed.v`) | history invariant; what is kept was answered with its name, comes with credentials and goes to a registered address; lifetime and client binding refuted |
| C30, C31, C62-C66 | `setup_auth`, `process_request`, `user_authn/user.py`, `authn_event.py` | inversion of the whole procedure, exact result where somebody is found; refuted in many places |
| C41, C42, C67-C71 | `oidc/session.py` | inversion of the request handling, exact effect of a logout on the store and exact set of clients told; refuted parts |
| C72-C77 | `endpoint_context.py`, `build_endpoints`, `construct_endpoint_info`, the endpoints' default capabilities | lookup theorem for the metadata, inverted for soundness; refuted parts |
| C78 | `in_memory_db.py`, `shelve_db.py`, `list_db.py` | simulation by a map specification over all histories; refuted parts |
| C79 | all endpoints of SetupAuth, TokenEndpoint, UserInfo, Logout and Manager on one state | invariant of the store, kept by every call (Hoare triples), over all sequences of calls |
| C80 | `get_token_handlers`, `factory`, `init_token_handler`, `add_passwd` | inversion of the set-up; exact result by default; refuted parts |
| C81 | SetupAuth, AuthzEndpoint, TokenEndpoint and UserInfo one after the other | each endpoint run forward from conditions on configuration, request and clocks; composition over states that agree on the session and the client |
| C82 | the calls of System | a call about other sessions keeps an invariant that fixes the sessions in question (Hoare triples as for C79), by induction over all sequences of calls; composition with C81 |
| C83 | `Implicit`, all endpoints | invariant of the store (Hoare triples as for C79) over all sequences of calls; the flow is C81 |
| C84 | all endpoints | the histories of C06, C08, C14, C16 with one more kind of step (anything that lets grants grow); every call of another endpoint is such a step, by the invariant of `Preserve.v` |
| C85 | userinfo endpoint from the request to the answer | what an accepted request shows about the header and the body, with C17 and C54; run of the default setup; refuted parts |
| C86 | token and introspection endpoint from the request to the answer | what an accepted request shows (C23, C53), with the cases of token requests (C06, C08) and C43; assertions once over histories of requests, as the ids seen only grow (C25); refuted parts universal |
| C87 | refreshing, any number of times, after the code flow | one refresh works (as in C81); induction over the rounds with anything in between that leaves the session alone; from the authorization request on; the old token goes on as well |
| C88 | the set-up of login methods, `UserPassJinja2` | invariant of the registry over the entries; the table of actions holds the last method with an action; the page from the authorization request on; refuted: shared actions, the default template, no methods |
| C89 | the session database, the session manager and both token helpers as sequences of single accesses to a serialising storage (`Prog.v`), proved to give what the functions give | inversion of the states in which a program can be cut; writing goes bottom up and readers go top down, so nothing shows before the last step; stops are one more kind of step in the histories of C06 and C09; refuted: later log-ins, leftovers of a removal, deleting several grants |
| C90 | the programs of `Prog.v` run by several workers in any order of their steps (`SchedSpec.v`) | frame argument: a program uses the keys of one user (and, when removing, the id of the client, database.py:132) and nothing else; traces of what a reader meets; refuted by schedules built for every state: two log-ins of one user, a revocation beside a write, one code twice |
| C91 | the helpers made from the configuration (`Services.v`), with Python's objects, imports and calls as parameters | inversion of the whole set-up into what each part of the configuration stands for, and back; the directory is joined twice, refuted for relative ones |
| C92 | `dict_subset`, `search`, `LoginHintLookup`, `LoginHint2Acrs`, `pick_auth` | induction over the users; the hint helper as set up by C91; the registry of C45 |
| C93 | the authorization endpoint for all response types, then as in C81 | each part of the response run forward (code, token made from the code or the grant, ID Token); the steps after it are those of C81 |
| C94 | fetching a request object and `AllowedAlgorithms` (`RequestObject.v`) | decision theorems over the RFC 7518 names; refuted for parts of names and for encrypted objects; linked to the parsing of C57 |
| C95 | `AuthzFront.v` (parsing with client authentication, the hooks, PKCE, processing) before what C81 and C93 run; the fronts of the token and userinfo endpoints | the parsing is run forward for requests that arrive well-formed (C95_front), then C81/C93 and the acceptance theorems of C23, C20, C21 |
| C96 | `Registration.v` before what C95 runs | registration is run forward for requests within the rules, with any further addresses that keep to theirs (C96_registered: the converse of C27 and C20's view of the addresses), and its record is shown to meet C95's conditions on the client |
| C97 | `Door.v`: one step per received request (authorization, pushed, token, userinfo, introspection), logout, revocation, change of the client database | the invariant of C79, with the past in terms of what was received: every grant in the store is accounted for by a visit, every token of it by a visit or an exchange with credentials; by induction over the arrivals |
| C98 | `Door.v`, as C97 | every sequence of received requests is simulated by a sequence of the calls of C84 (`DoorLastingProofs.v`: a refused request by a change of the client database only, a token request by a parse and a process call), with the same sessions after it and at least the same successes in it; so what C84 says carries over; which request a session belongs to is an invariant of its own (`DoorRequestProofs.v`), which gives C97_request and C98_challenge |
| C99 | `Scopes.v` (`add_custom_scopes`) before the scope and claims functions of C17, C18, C40 | the table after the add-on is computed; who may use a scope is compared before and after with the independent `may_use` of C40; refuted parts universally |
| C100 | the lookups of `Manager.v`, `get_spec` | exact answers in terms of the abstract view of the store (`view`); `grants` by a pointwise relation to the listed ids; refuted parts universally |
| C101 | `payload_arguments`, `mint_token` (`Minting.v`), the handlers (`TokenHandler.v`) | exact payload (an iff for every member) from the independent description of released claims of C18 |
| C102 | `token_parse`, `token_process` (`TokenEndpoint.v`), PKCE | by cases on the first reason for refusal, the exact answer and the unchanged state; one theorem for each way out by an exception |
| C103 | the received requests of `Door.v` | every received request comes down to calls of System that are about the same sessions, so C82 carries over by induction over what arrives; composition with C95 |
| C104 | the received requests of `Door.v` | C87, one round at a time, with the record of the client as it is noted at the time of the round; C103 for what arrives in between; refuted with the PKCE add-on, by C15 |
| C105 | `Sso.v` (the session cookie), `Cookie.v`, `SetupAuth.v`, `AuthzEndpoint.v` | the cookie of a response, sent back, gives the session (C33), and what the set-up of the authentication does with it (C63) |
| C106 | the received requests of `Door.v`, registration (`Registration.v`) | a relation on client databases, kept by every step of every endpoint; refuted for claims of single clients kept as a dict, which requests write into (C18); with it C103's code flow and C104's refreshing no longer assume anything of the client's record (C106_flow, C106_refreshing) |
| C107 | `get_usage_rules` (`UsageLookup.v`) on the rule dicts of `Authz.v` and the table of defaults | exact result member by member; the update is written where the dict lives, so refuted universally for the defaults and for a client's own rules |
| C108 | the arguments of `add_grant` (`UsageLookup.v`) | exact lookup in the arguments that get through; refuted universally for the claims (dropped) and for `claim` and `users` (an exception) |
| C109 | all received requests (`Door.v`), where the scope comes from (`ScopesAskedSpec.v`) | invariant over all arrivals: the scope of each session is empty or that of a request its client came with (`Preserve.v`: a call of the handler takes the request's scope or leaves it); the answers of the token endpoint by symbolic execution. Introspection in the same way (C109_introspection), for users without an attribute called scope, which would take the place of the scope |
| C110 | registration (`Registration.v`), the addresses (`RegisteredUrisSpec.v`) | the steps of the registration as equations on the record; what is recorded is composed with C41 for the way back after a logout (C110_return, C110_return_only); refuted universally for a sector that is given without the URI of a list |
| C111 | registration (`Registration.v`), then scopes (`Scopes.v`), claims (`Claims.v`) and usage rules (`Authz.v`, whose rules are tied to the client's record by `from_records`) | what is recorded (C26) composed with the descriptions of C40, C18 and C39 in both directions: a registration that says nothing leaves it to the provider, refuted universally for one that does |
| C32, C45 | `authn_context.py` | registry invariant |
| C33 | `cookie.py` | unforgeability from an ideal MAC |
| C34 | `lv_pack`, `lv_unpack` | round trip (iff), termination |
| C35 | token handlers | round trip through an ideal cipher |
| C36, C37 | `to_json/from_json`, non sharing store | round trip; refuted parts |
| C38 | subject identifier functions | injectivity from an injective hash; refuted parts |
| C39 | `usage_rules` and its application | merge specification; refuted after authorisation |
| C40 | `scopes.py` | list characterisation |
| C43 | `introspection.py` | decision theorem, values that are not known included (C43_unknown); refuted for override and for tokens of sessions that are gone |
| C44 | `inputs` | parser round trip for harmless values; refuted otherwise |
| C46, C56 | `endpoint.py` | header and body theorems |
| C57 | `_do_request_uri` | case analysis, composed with the registration of the addresses; refuted without registration and for an address that ends in a mark |
| C47 | `create_authn_response` | lookup theorem |
| C58, C59 | `authorize`, `create_authn_response`, `post_authentication`, `authz_part2`, `do_response` | exact effect of a successful response; refuted for errors |
| C48 | `get_sign_and_encrypt_algorithms` | precedence theorem, for signing and for both encryption algorithms (C48_algorithms), composed with the registration of the algorithms |
| C49 | `delete_cookie`, `kill_cookies`, `append_cookie` | expiry theorem; refuted for logout |
| C50 | `compute_session_state` | equal states give equal inputs or a collision |
| C51 | `configure_grant_types`, `TokenEndpoint.post_parse_request` | refusal of grant types that are off; refuted for those enabled with True or None |
| C52 | code and refresh helpers, `_mint_token` | exact effect of a successful response; refuted: rotation, expires_in without lifetime |
| C53 | `JWSAuthnMethod.verify` | what a reported client implies; refuted for request objects |
| C54 | `verify_client` | frame theorem on the client database and the ids seen; what is noted, where (C54_note) |
| C55 | `parse_request`, `client_authentication` | the client of the parsed request, by one of the configured methods (C55_methods, C55_configured); refuted without configured method |

## 4. What is modelled

| Python | Theory | Left out |
|--------|--------|----------|
| session/database.py, session/info.py | SessionKey, Database | `__getitem__` variants, dumping |
| session/grant.py, session/token.py | Types, Token, Grant, Minting, UsageLookup | `ExchangeGrant` except where it is stored (Storage) and its attributes (UsageLookup) |
| session/storage.py, `to_json`/`from_json` of session/*.py | Storage | the JSON library, `importlib` and oidcmsg messages: parameters |
| session/manager.py | Manager | `dump`/`load` |
| token/*.py | TokenHandler, LV, PyInt | the JWT library itself: parameters |
| cookie.py | Cookie | base64, MAC and AES-GCM: parameters |
| scopes.py, session/claims.py, authz/__init__.py, user_info/__init__.py | Scopes, Claims, Authz; the choice of the handler in AuthzEndpoint | attributes the default handler sets from names of two characters |
| oidc/userinfo.py, oauth2/introspection.py | UserInfo, UserinfoFront, Fronts | signing and encryption of the response |
| oidc/token.py, oidc/add_on/pkce.py | TokenEndpoint, World, Threads, Fronts | the check of the request message: a parameter |
| id_token.py | IDToken | JWT packing and left_hash: parameters; signing algorithms that are not str |
| client_authn.py, endpoint.py (parse_request) | ClientAuthn | methods given as class path, str entries of the client database |
| util.py split_uri, oauth2/authorization.py verify_uri, get_uri | Uri, PyUrl | IPv6 hosts and stripped characters in PyUrl (examples only) |
| user_authn/authn_context.py; endpoint_context.py 320-334, the form of user_authn/user.py | AuthnBroker, Login | the template engine, JWT, importing classes: parameters; further members of an entry |
| oauth2/authorization.py `inputs`, `FORM_POST` | FormPost; FormPostSpec is the HTML reader | how `to_dict` shows a value |
| endpoint.py `do_response`, the userinfo and discovery variants | Response; ResponseHeadSpec | serialisation of messages: parameters |
| oauth2/authorization.py `_do_request_uri`, `_post_parse_request`, `verify_response_type`; oauth2/pushed_authorization.py | AuthzRequest | Message.verify, HTTP and JWT: parameters; descriptions of errors |
| oauth2/authorization.py 45-58, 366-393, 957-974 | RequestObject | HTTP GET and reading the JWT: parameters |
| endpoint.py 213-279, 323-330, oauth2/authorization.py 290-291, 909-954, oidc/authorization.py 103-104, pkce.py 141 | AuthzFront | together with ClientAuthn, AuthzRequest, TokenEndpoint (PKCE), AuthzEndpoint; a client id that is no str is looked up like a missing one |
| oauth2/authorization.py 603-904 (after the authentication) | AuthzEndpoint | ID Token making, cookies, str of a value or exception: parameters |
| oauth2/authorization.py 444-601, 909-954; oidc/authorization.py; user_authn/user.py; authn_event.py; login_hint.py | SetupAuth | the clock stands still during a call; base64, JSON and decryption: parameters; templates |
| oidc/session.py | Logout (cookies: Cookie) | JWT packing, HTTP, AES: parameters; `unpack_signed_jwt` |
| oidc/registration.py, oidc/read_registration.py | Registration | RegistrationRequest.verify, key loading, HTTP GET: parameters; cookie of the response |
| endpoint_context.py, endpoint.py 81-155, util.py 46-89, 140-199, oidc/provider_config.py, oidc/discovery.py | Provider | what constructors do besides endpoint_info, importing classes: parameters; add-ons (custom scopes are in Scopes) |
| in_memory_db.py, shelve_db.py, list_db.py | Stores | `shelve` and `dbm` as dictionaries; the order of their keys is a parameter |
| endpoint_context.py 65-84, token/handler.py 71-140 | TokenSetup | key jars, importing classes: parameters |
| endpoint_context.py 41-62, 257-318, 336-351, 381-386; util.py 16-34; login_hint.py; user_info/__init__.py 7-27, 74-79 | Services | objects, importing and calling: parameters; add-ons that raise; `scope2claims` of the configuration is read by nothing |
| session/database.py, session/manager.py, oidc/token.py once more, access by access | Prog | the storage that shares objects; an access to the storage or to the client database is one step |
| the endpoints together | System | the calls come with what changes from call to call (clock, new ids, what the methods see); requests to the authorization endpoint are already parsed; a token request may be processed at any time after it was accepted |
| the endpoints together, from received requests on; oauth2/pushed_authorization.py with endpoint.py 213-279 | Door | as System, after parsing and client authentication; the application answers the error messages of parse_request itself at the userinfo and the pushed request endpoint |

External functions are parameters or record fields (`urllib`, `outside`, `rconf`, ...), and every law assumed of
one is a hypothesis of the theorem that needs it.

## 5. Defects the proofs exhibit

Each is a theorem with suffix `_refuted`, next to the strongest true version. The comment above the theorem says
exactly what fails and under which conditions; this list only points there.

* Session ids are ambiguous for names with `;;` or ending in `;` (C01).
* Session store: deleting a grant writes under the client id alone (C04), deleted user sessions can come back (C02, C05);
  the second login of the same user at the same client makes the first session unreadable (C03); `revoke_token` has no
  effect in a serialising store (C37).
* Revocation: a chain of refresh tokens longer than the recursion limit cannot be revoked (C07); revoking a grant or a
  client session makes no difference to userinfo and introspection, and revoking a client session none to the
  token endpoint (C09).
* Token endpoint: two threads can redeem one code (C06); the client plays no role in what is served (C12); with PKCE on no
  refresh request is served (C15); grant types enabled with True or None end in an exception (C51); the old refresh
  token stays usable and expires_in can be minus the current time (C52).
* Subjects: user and sector are just concatenated, and a login ignores the registered subject type (C38).
* Claims, scopes and rules: one session's claims show up in other sessions of a client with dict valued claims (C18);
  str values are searched for substrings (C17, C40); the grant keeps scopes the client may not use (C40); a
  client can register its own allowed scopes, claims and token lifetimes (C111); the
  provider's usage rules displace the client's, and configuration dicts are changed in place (C39).
* Userinfo: a request without token, or with a token whose session is gone, ends in an exception; a client named in the request is not
  compared with the token's (C85).
* Introspection: a user attribute can replace sub or client_id (C43); every client is told about every client's tokens (C86).
* Token and introspection endpoint: unless methods are configured, both serve requests without credentials and with wrong ones; where they are,
  a client that fails to authenticate causes an exception, not an error message (C86).
* Client authentication: `none` admits requests with wrong credentials, another method can make up for a wrong secret,
  bearer_body (and bearer_header where tokens are not looked up) takes any token (C24); assertions without an id are
  replayable, as are all with two threads, and issuer and id are joined ambiguously by `:` (C25); request objects are
  taken without audience or key check (C53); an endpoint without configured method believes the client_id (C55).
* Redirect URIs: the one compared is unquoted, the one used is not; of two with one base the second is refused;
  parameters without value are not compared; native clients' URIs with a query are refused; a "#" at the end is accepted (C20).
* Registration: a refused request leaves a client with a valid secret; a request may set client_secret and most other
  members (C26); fragments of native clients' URIs are not looked for, str capabilities are searched for substrings (C27).
* Reading a registration needs no registration access token with bearer_body or without configured method (C28).
* Authentication methods: registering an id again leaves the old class behind (C45); with one method, a single acr value
  or a null acr claim the request's wish is not honoured (C32).
* form_post: values are not escaped, a quote in the state lets in parameters of the sender's choosing (C44).
* Responses: those in the URL have no content type, a header in other spelling gives two, discovery forbids no caching
  (C46); with a content type argument no body is sent, errors without return address cannot be sent in the URL (C56).
* Authorization requests: a request object may name another client than the one checked (C21); a pushed request can be used
  by other clients and after its lifetime (C29); without registered request_uris any address is fetched, also when
  request_uri is not supported, and an address registered with "#" at its end cannot be used (C57); a request object may be signed with any algorithm whose name is part of the registered one's, and
  encrypted ones are turned away, because the signature's header is searched for the encryption (C94).
* Authorization responses: with a redirect_uri that ends in "#" the code is in the fragment (C22); form_post pages have no issuer
  and client_id (C47); errors have no state, and none is sent when the authorization fails, as it does without scope (C59).
* Without a configured authorization handler no scope, claim or audience is ever granted; configuring the default one stops all requests (C83).
* ID Tokens: those of the token endpoint have no at_hash, and a user attribute can stand for a missing c_hash or at_hash (C19);
  they are never encrypted, and user claims only if both algorithms are registered (C60); for a client with a logout URI, where the
  provider supports that with session ids, none can be made (C61).
* Who the user is: prompt=login has no effect, and prompt=none can lead to interaction (C30); the time of authentication recorded is
  that of the request (C31); max_age is switched off by upm_answer=true or by being 0 (C62); the provider's own session cookie makes
  the next request fail, as does a wrongly signed one (C63); the Basic and symmetric key methods accept nobody (C64); id_token_hint is not
  looked at, and with the supplied login_hint lookup a login_hint ends in an exception (C65); the user of a session named by the identity is not
  compared with the one recognised (C66); login_required is sent without state (C59).
* Logging out: a client_id in the request lets in another client's redirect URI (C41); clients without logout URI keep their sessions, a
  client that is not registered any more stops the logout, tokens work as before (C42); a client's server that does not answer leaves the clients
  after it untold, refusals are not reported (C67); frames for URIs with fragments or quotes go wrong, and show the user's id (C68); the state is
  appended with a second "?" (C69); with client authentication configured no request is accepted, requests that are no dicts are not verified
  (C70); session ids in logout tokens are all encrypted with one initialisation vector, which a restart changes (C71).
* Cookies and packing: the name is not protected, values with the separator can be re-cut (C33); logout expires no
  cookie, joining jars loses values (C49); trailing white space of the last packed value is lost (C34).
* Stored sessions: a stored grant forgets how often it has been used, an ExchangeGrant its users, tokens cannot be read by the store, and
  claims that were the client's are frozen (C36).
* Setting up: configured algorithms for ID Tokens are replaced by all there are, and clients can register these, "none" too (C73); "none" can be
  offered for client authentication (C74); without handler for refresh tokens, or without capabilities, it does not work (C75); an OAuth2
  authorization or PAR endpoint makes the provider publish that it supports no scope (C76); there, the add-on for custom
  scopes takes all other scopes away from clients without a list; the policy for unknown scopes does not know custom scopes, a second use
  forgets the first, and a scope listed for a client that stands for no claims raises KeyError (C99); a file of trusted certificates is dropped (C77);
  the in-memory store and the shelf differ on false values, in-place changes and missing keys (C78);
  an endpoint class called like a member of the metadata is published by its path alone (C72); password methods share one action
  unless configured otherwise, and the last one then checks all forms; the default template cannot be used (C88).
* Stopping within a call: a second log-in first takes away the old session, a cut removal can leave the record of a user for ever, a cut deletion
  of several grants can never be repeated, tokens of a cut exchange stay in the storage (C89).
- Workers that share a storage: calls about one user overwrite each other. Of two log-ins at different clients one
  may be lost though both were answered; a revocation may be undone by a call that read the session before it; one
  code presented twice at a time may be redeemed twice, and then one pair of tokens is not in the session (C90).
* Token handlers: a type argument always makes a code; JWT handlers sharing a key are confused (C35); the lifetime of default
  handlers is never looked at, one beside kwargs is dropped, an empty configuration of the codes breaks every lookup (C80).
* Looking up: session information with both the grant and the authentication event raises; what applies to a token is told for
  revoked and expired tokens too, as `is_active` is not called; an added grant is listed twice, and once it is removed
  (or any grant, with a serialising storage) the grants of that client can be listed no more (C100).
* A user's attribute called scope or aud, once asked for as a claim, replaces the scope or the audience in access tokens (C101).
* Refused token requests: an unknown refresh token, an expired JWT, a session that is gone while another of the user is there, a
  missing redirect_uri, a revoked session and a verifier that is not ASCII all end in exceptions and not in error messages; a code with blanks is refused
  before its blanks are made good; when the ID Token cannot be made the code is used up all the same (C102).
* Single sign-on: the session cookie of a response holds the session and the state but no user, so while the session is active each
  further request with it, of any client, raises KeyError with the methods that go by the cookie; with the method for tests
  only the same request of the same client is answered without a login (C105).
* Helpers: a configured scopes handler and an add-on without arguments stop the set-up; a relative directory is put in front of
  the file of users twice, and twice more when the configuration is used again (C91); the supplied login hint lookup gets the
  users under another name than it reads, and does not look at the first digit of a national number (C92).

## 6. Trusted base

Coq's kernel; the reading of the Python source; the laws assumed of external functions, which
appear as hypotheses in the theorem statements. `Print Assumptions` is printed under every
property theorem, and says "Closed under the global context" for each of them: no axiom, not even one of the standard
library. (A checker that goes through the loaded library as a whole also lists the seven fields of the module type
`Coq.ssr.ssrunder.Under_rel`, which the standard library's own ssreflect support contains; no theorem here uses them.)

## 7. Not modelled

Logging, Jinja templates, HTTP transport, key handling (`cryptojwt`), message (de)serialisation
of `oidcmsg`, module import/configuration loading, the provider's web framework glue.
