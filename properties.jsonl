{"id": "C01", "title": "No token without client authentication", "statement": "Whatever the data layer answers, the token endpoint calls CreateOAuthToken, RefreshAccessToken, CreateOrUpdateAuthInfo, FindUserId, FindUserIdBySubject, FindAuthSessionByCode, FindOAuthTokenByRefreshToken or DisableSession, or writes status 200, only after the same run has authenticated a client: either FindClientById(id) returned a client that matches the presented secret, or a client_assertion verified under that client's assertion key was accepted.", "quantifier": "every endpoint configuration, request, data-layer behaviour (including errors and nil results) and every prefix of every run", "why_tests_cant": "a test fixes one store and one request; the claim ranges over every answer the store may give and over every intermediate point", "anchors": ["token_endpoint.go:Handler", "token_endpoint.go:validateClientBySecret", "token_endpoint.go:validateClientByAssertion"]}
{"id": "C02", "title": "Only POST is served by the token endpoint", "statement": "A request whose method is not exactly POST gets 405 and causes no data-layer call.", "quantifier": "every request, configuration and data layer", "why_tests_cant": "infinitely many methods and requests", "anchors": ["token_endpoint.go:Handler"]}
{"id": "C03", "title": "One complete, uncacheable answer per token request", "statement": "Every run of the token endpoint on a POST that does not panic writes exactly one status line followed by exactly one body, with Cache-Control: no-store, Pragma: no-cache and a JSON content type set before the status line; status 401 carries a Basic WWW-Authenticate challenge with the realm.", "quantifier": "every configuration, request, data-layer behaviour", "why_tests_cant": "every error path must be covered; tests sample a few", "anchors": ["token_endpoint.go:success", "token_endpoint.go:fail", "token_endpoint.go:failWithAuthHeader", "token_endpoint.go:setCommonResponseHeader"]}
{"id": "C04", "title": "Clients only use grant types they are allowed to use", "statement": "If the token endpoint answers 200 for grant type g then the authenticated client's CanUseGrantType(g) is true. (Holds for client_secret authentication; violated for client_assertion authentication.)", "quantifier": "every configuration, request and data layer", "why_tests_cant": "needs all authentication paths crossed with all grant types", "anchors": ["token_endpoint.go:validateClientBySecret", "token_endpoint.go:validateClientByAssertion"]}
{"id": "C05", "title": "Grant dispatch obeys Support()", "statement": "A grant_type that was never passed to Support is refused with unsupported_grant_type and no data-layer call; an empty grant_type is refused with invalid_request; a supported one runs the handler registered last under that name.", "quantifier": "every sequence of Support calls and every request", "why_tests_cant": "all registration histories", "anchors": ["token_endpoint.go:Support", "token_endpoint.go:Handler"]}
{"id": "C06", "title": "Client credentials are taken only from accepted places", "statement": "With FromHeader a client_secret outside the Authorization header never authenticates anybody; with FromHeaderAndPostBody a secret that appears only in the URL query never does; the Authorization header always wins over form values.", "quantifier": "every request (any mix of header, body and query values) and every acceptance method", "why_tests_cant": "unbounded request space", "anchors": ["token_endpoint.go:findClientCredential", "basic_auth/util.go:FindClientCredential"]}
{"id": "C07", "title": "Authorization-code exchange is sound", "statement": "A successful authorization_code exchange implies: the presented code named a session, the session's authorization is active, it belongs to the authenticated client, the presented redirect_uri equals the one of the session byte for byte, PKCE succeeded when the session carries a code_verifier, a token was created for exactly that authorization and the session was disabled before the response was produced.", "quantifier": "every request, client, data-layer behaviour", "why_tests_cant": "all data-layer answers and all values of the request parameters", "anchors": ["grant/authorization_code.go:AuthorizationCode"]}
{"id": "C08", "title": "Refused code exchange has no effect", "statement": "If an authorization_code exchange fails a check (client, redirect_uri, PKCE, missing parameter, unknown code, inactive authorization) then neither CreateOAuthToken nor DisableSession is called in that run.", "quantifier": "every request, client, data-layer behaviour", "why_tests_cant": "negative property over all executions", "anchors": ["grant/authorization_code.go:AuthorizationCode"]}
{"id": "C09", "title": "A code is redeemed at most once (any sequential history)", "statement": "Over a store in which DisableSession removes the session, in any sequence of token requests at most one authorization_code request presenting a given code gets a successful answer after the session was stored once.", "quantifier": "every finite history of requests by any clients, any initial store contents", "why_tests_cant": "unbounded histories", "anchors": ["grant/authorization_code.go:AuthorizationCode", "test_helper/store.go:DisableSession", "test_helper/store.go:FindAuthSessionByCode"]}
{"id": "C10", "title": "A code is redeemed at most once (any interleaving)", "statement": "When requests run concurrently and each data-layer call is atomic, at most one request presenting a given code succeeds. (Holds when DisableSession fails for an already disabled session; violated for a store, such as the bundled test store, whose DisableSession always succeeds.)", "quantifier": "every number of concurrent requests and every schedule of their data-layer calls", "why_tests_cant": "schedules cannot be enumerated by tests", "anchors": ["grant/authorization_code.go:AuthorizationCode", "test_helper/store.go:DisableSession"]}
{"id": "C11", "title": "Crash atomicity of the code exchange", "statement": "If the process stops at any point of a code exchange then it is never the case that a token exists while the code is still redeemable. (Violated: the token is created before the session is disabled; what does hold is that a session is never disabled unless a token was created first.)", "quantifier": "every crash point of every execution", "why_tests_cant": "tests do not stop the process between two data-layer calls", "anchors": ["grant/authorization_code.go:AuthorizationCode"]}
{"id": "C12", "title": "PKCE verification is exactly RFC 7636's relation", "statement": "Verification with method plain succeeds iff challenge and verifier are equal; with S256 iff challenge is the unpadded base64url encoding of SHA-256(verifier); every other method name is refused.", "quantifier": "every challenge, verifier, method string", "why_tests_cant": "infinite domain", "anchors": ["pkce/verifier.go:FindVerifierByMethod", "pkce/verifier.go:Verify", "pkce/crypto.go:S256Encode"]}
{"id": "C13", "title": "PKCE protects a leaked authorization request", "statement": "Someone who has seen everything sent in the authorization request and the code, but nothing else, cannot compute the PKCE parameter the token endpoint asks for. (Violated: the verifier is what is sent in the authorization request and the derived challenge is what is asked at the token endpoint, so the observer computes it.)", "quantifier": "every code_verifier", "why_tests_cant": "universal over verifiers; a statement about derivability", "anchors": ["grant/authorization_code.go:AuthorizationCode", "authorization/request.go:ToSession"]}
{"id": "C14", "title": "Unpadded base64url is lossless and URL safe", "statement": "EncodeBase64WithoutPadding never emits '=', '+' or '/', has the length prescribed for unpadded base64 and determines its input.", "quantifier": "every byte sequence", "why_tests_cant": "infinite domain", "anchors": ["pkce/crypto.go:EncodeBase64WithoutPadding"]}
{"id": "C15", "title": "Refresh exchange is sound", "statement": "A successful refresh_token exchange implies the token found by the presented refresh token was unexpired at the request time, its authorization is active, belongs to the authenticated client and includes offline_access; the refreshed token is derived from exactly that token, and the answer's scope is the authorization's scope.", "quantifier": "every request, client, data-layer behaviour, time", "why_tests_cant": "boundary times and all data-layer answers", "anchors": ["grant/refresh_token.go:RefreshToken"]}
{"id": "C16", "title": "Refused refresh has no effect", "statement": "If a refresh_token exchange fails any check then RefreshAccessToken is not called.", "quantifier": "every request, client, data-layer behaviour", "why_tests_cant": "negative property over all executions", "anchors": ["grant/refresh_token.go:RefreshToken"]}
{"id": "C17", "title": "Direct grants never exceed the client's scope", "statement": "In the password, client_credentials and JWT grants the scope handed to CreateOrUpdateAuthInfo is the requested one and is either empty or one the client may use in the direct flow, the client id is the authenticated client's and the user is the one the credentials identify.", "quantifier": "every request, client, data-layer behaviour", "why_tests_cant": "all scope strings and all data-layer answers", "anchors": ["grant/password.go:Password", "grant/client_credential.go:ClientCredentials", "grant/jwt.go:JWT"]}
{"id": "C18", "title": "Accepted assertions are verified, current, recorded and addressed to us", "statement": "An assertion is accepted only if its signature verifies under the key the client published for its alg and kid, the JWT library found no claim error, it has a usable exp, its claims were recorded successfully for that client, and aud is exactly the non-empty issuer.", "quantifier": "every assertion, client, data-layer behaviour and signature scheme", "why_tests_cant": "all claim shapes and error combinations", "anchors": ["assertion/error.go:HandleAssertionError", "token_endpoint.go:validateClientByAssertion", "grant/jwt.go:JWT"]}
{"id": "C19", "title": "Malformed client assertions are answered, not crashed on", "statement": "A client_assertion that is not a well-formed JWT gets an OAuth error response. (Violated: the handler panics.)", "quantifier": "every string", "why_tests_cant": "every malformed shape", "anchors": ["assertion/error.go:HandleAssertionError", "token_endpoint.go:validateClientByAssertion"]}
{"id": "C20", "title": "Replayed assertions are refused", "statement": "If the data layer refuses to record an assertion's claims (replay), no client is authenticated and no token is granted on its basis.", "quantifier": "every assertion and data layer", "why_tests_cant": "all executions", "anchors": ["assertion/error.go:HandleAssertionError"]}
{"id": "C21", "title": "Data-layer failures never turn into success", "statement": "In every grant handler, if some data-layer call of the run returned an error or nil, the answer is an OAuth error; 'failed' errors become 400-class errors and 'unsupported'/server errors/nil become server_error with status 500.", "quantifier": "every data-layer behaviour", "why_tests_cant": "all error combinations on all calls", "anchors": ["grant/*.go", "bridge/errors.go"]}
{"id": "C22", "title": "ID tokens in code exchanges are bound to client, user, session and time", "statement": "A successful code exchange carries an id_token iff the authorization's scope contains openid, and it is the signature, under the client's key, of claims with iss = issuer, aud = the client, sub = the authorization's subject, exp = request time + the session's lifetime, iat = request time, the session's nonce iff non-empty, and auth_time.", "quantifier": "every request, client, data-layer behaviour and time", "why_tests_cant": "all sessions and times", "anchors": ["grant/authorization_code.go:AuthorizationCode", "id_token/id_token.go:Gen"]}
{"id": "C23", "title": "at_hash and c_hash follow OpenID Connect", "statement": "In implicit/hybrid ID tokens at_hash (c_hash) is present iff an access token (code) is returned beside it, and is the base64url encoding of the left half of the hash named by alg. (Presence holds; the encoding part is violated: padded standard base64 is used.)", "quantifier": "every alg, token, code", "why_tests_cant": "infinite domain", "anchors": ["id_token/id_token.go:Hash", "id_token/id_token.go:GenForImplicit", "id_token/id_token.go:GenForHybrid"]}
{"id": "C24", "title": "Protected resources are only served for live tokens", "statement": "Validate returns true only if the presented token was found, is unexpired, and its authorization is active; then the request's X-OAUTH-USER-ID, X-OAUTH-CLIENT-ID and X-OAUTH-SCOPE headers are exactly the authorization's, whatever headers the caller sent in whatever spelling, and nothing has been written to the response.", "quantifier": "every request (including forged X-OAUTH headers), data-layer behaviour and time", "why_tests_cant": "all header spellings and data-layer answers", "anchors": ["resource_protector.go:Validate"]}
{"id": "C25", "title": "A refused resource request is answered exactly once", "statement": "When Validate or ValidateWithScopes returns false exactly one status line (400, 401, 403 or 500) has been written, 400/401/403 with a Bearer challenge, and the data layer was only read.", "quantifier": "every request and data-layer behaviour", "why_tests_cant": "every error path", "anchors": ["resource_protector.go:Validate", "resource_protector.go:ValidateWithScopes", "resource_protector.go:unauthorize"]}
{"id": "C26", "title": "Per-path scope requirements are enforced", "statement": "ValidateWithScopes returns true only if every scope listed for the request path is one of the token's scopes; otherwise the answer is 403 insufficient_scope naming the first missing scope.", "quantifier": "every scope map, path, token scope string", "why_tests_cant": "infinite domain", "anchors": ["resource_protector.go:ValidateWithScopes", "scope/util.go:IncludeAll"]}
{"id": "C27", "title": "Access tokens are taken from every accepted place", "statement": "With FromHeaderAndPostBody (FromAll) an access_token form value is used when there is no Authorization header. (Violated: form values are only consulted when the header is a Bearer header with an empty token.) With FromHeader form values are never used.", "quantifier": "every request", "why_tests_cant": "all header/form combinations", "anchors": ["resource_protector.go:findTokenFromRequest"]}
{"id": "C28", "title": "A data layer answering nil never crashes the resource protector", "statement": "Validate never panics. (Violated: a nil AuthInfo without error is dereferenced; it holds for every other data-layer answer.)", "quantifier": "every request and data-layer behaviour", "why_tests_cant": "all nil/error combinations", "anchors": ["resource_protector.go:Validate"]}
{"id": "C29", "title": "Token expiry is exact for all representable times", "statement": "An access token is accepted iff refreshedAt + expiresIn >= now and a refresh token iff createdAt + expiresIn >= now, provided the sums fit in 64 bits; when a sum overflows the token is treated as expired at every non-negative time.", "quantifier": "every int64 triple", "why_tests_cant": "boundary and overflow values", "anchors": ["resource_protector.go:Validate", "grant/refresh_token.go:RefreshToken"]}
{"id": "C30", "title": "The authorization endpoint never redirects to an unregistered URI", "statement": "HandleRequest redirects (or posts a form) only to the request's redirect_uri and only after the client found by client_id approved that URI; before that point the only output is ShowErrorScreen.", "quantifier": "every request, policy, client, callback and data-layer behaviour", "why_tests_cant": "all request parameter combinations", "anchors": ["authorization_endpoint.go:HandleRequest"]}
{"id": "C31", "title": "State is echoed unchanged", "statement": "Every redirect or form answer of the authorization endpoint carries the request's state parameter unchanged iff it is non-empty, and the answer is success xor error.", "quantifier": "every request, callback and data-layer behaviour", "why_tests_cant": "every path", "anchors": ["authorization_endpoint.go:HandleRequest", "authorization_endpoint.go:complete", "authorization/response.go"]}
{"id": "C32", "title": "Requests shown to the user are fully validated", "statement": "Every request handed to ShowLoginScreen or ShowConsentScreen names a client that may use its flow and scope and redirect URI, has an accepted display, valid prompt, max_age within policy (or absent), nonce and code_verifier within policy length, a nonce when an ID token is returned from the endpoint, openid when an ID token is required, and a non-empty scope unless policy allows.", "quantifier": "every request, policy, client, callback and data-layer behaviour", "why_tests_cant": "conjunction over all parameter combinations", "anchors": ["authorization_endpoint.go:HandleRequest"]}
{"id": "C33", "title": "Consent is skipped only when a recent identical consent exists", "statement": "HandleRequest itself creates a code, session or token only if the data layer returned, for the logged-in user and this client, an active authorization with the same set of scopes (as a multiset) that is younger than the consent omission period, and prompt does not contain consent.", "quantifier": "every request, policy, client, callback and data-layer behaviour, clock", "why_tests_cant": "all executions", "anchors": ["authorization_endpoint.go:HandleRequest"]}
{"id": "C34", "title": "prompt=none never shows UI", "statement": "If the request's prompt contains none, HandleRequest shows neither a login nor a consent screen. (Holds for the exact value 'none' with a known none-prompt policy; violated for 'none none', which is accepted and then treated as interactive.)", "quantifier": "every request, policy, client, callback and data-layer behaviour", "why_tests_cant": "all executions", "anchors": ["authorization_endpoint.go:HandleRequest", "prompt/util.go:Validate"]}
{"id": "C35", "title": "Login is required before anything is granted", "statement": "HandleRequest creates a code, session or token or shows the consent screen only after ConfirmLoginSession answered true. (Holds except for the id_token_hint none-prompt policy, which never asks.)", "quantifier": "every request, policy, client, callback and data-layer behaviour", "why_tests_cant": "all executions", "anchors": ["authorization_endpoint.go:HandleRequest"]}
{"id": "C36", "title": "prompt=login forces re-authentication", "statement": "When prompt contains login, consent is shown or anything is issued only if RequestIsFromLogin answered true in the same run.", "quantifier": "every request, policy, client, callback and data-layer behaviour", "why_tests_cant": "all executions", "anchors": ["authorization_endpoint.go:HandleRequest"]}
{"id": "C37", "title": "max_age is enforced", "statement": "With max_age > 0, consent is shown or anything issued only if now - auth_time <= max_age. (Holds for interactive requests; violated for prompt=none. A policy that admits max_age=0 does not get it enforced either.)", "quantifier": "every request, clock, callback and data-layer behaviour", "why_tests_cant": "boundary values", "anchors": ["authorization_endpoint.go:HandleRequest"]}
{"id": "C38", "title": "offline_access requires explicit consent and a code", "statement": "The scope of every request that leaves HandleRequest (to screens, sessions or answers) contains offline_access only if the flow is not implicit and prompt contains consent.", "quantifier": "every request, policy, client", "why_tests_cant": "all scope strings and prompts", "anchors": ["authorization_endpoint.go:HandleRequest", "scope/util.go:RemoveOfflineAccess"]}
{"id": "C39", "title": "Response modes are never weakened below the flow's default", "statement": "With the security level check on and a valid default mode, the response mode used by any answer given after the mode was determined is a known mode at least as secure as the default for the flow. The mode asked for is honoured whenever it is known and allowed.", "quantifier": "every request and policy", "why_tests_cant": "all mode strings and policies", "anchors": ["authorization_endpoint.go:HandleRequest", "response_mode/util.go:CompareSecurityLevel"]}
{"id": "C40", "title": "response_type decides the flow independent of word order", "statement": "JudgeByResponseType accepts a string iff its space separated words are a permutation of one of the seven supported sets, and the flow it returns requires an access (ID) token iff the words contain token (id_token) beside or without code.", "quantifier": "every string", "why_tests_cant": "infinite domain", "anchors": ["flow/flow.go:JudgeByResponseType"]}
{"id": "C41", "title": "What is stored is what was requested and what is returned", "statement": "Completing a code or hybrid request stores exactly one session holding the returned code, the request's redirect URI, nonce and code verifier, the policy lifetime and the login's auth time, for the authorization passed in, before the success answer; implicit requests store none; tokens and ID tokens are returned iff the flow requires them.", "quantifier": "every stored request, policy, callback and data-layer behaviour", "why_tests_cant": "all executions", "anchors": ["authorization_endpoint.go:completeAuthorizationCodeFlowRequest", "authorization_endpoint.go:completeImplicitFlowRequest", "authorization_endpoint.go:completeHybridFlowRequest", "authorization/request.go:ToSession"]}
{"id": "C42", "title": "Token answers from the authorization endpoint carry expires_in", "statement": "Every success answer of the authorization endpoint that carries access_token carries token_type=bearer and expires_in equal to the token's lifetime. (Holds in hybrid flow; violated in implicit flow, where the parameter is named rexpires_in.)", "quantifier": "every request, callback and data-layer behaviour", "why_tests_cant": "all executions", "anchors": ["authorization_endpoint.go:completeImplicitFlowRequest", "authorization_endpoint.go:completeHybridFlowRequest"]}
{"id": "C43", "title": "Cancel and complete act on the stored request only", "statement": "CancelRequest answers access_denied to the stored request's redirect URI in its response mode and touches no data; CompleteRequest records consent for the logged-in user, the stored client and the stored scope before anything is issued.", "quantifier": "every stored request, callback and data-layer behaviour", "why_tests_cant": "all executions", "anchors": ["authorization_endpoint.go:CancelRequest", "authorization_endpoint.go:CompleteRequest"]}
{"id": "C44", "title": "Redirect answers can be parsed back by the client", "statement": "For a redirect URI without fragment and with no query or a non-empty query, the query (or fragment) of the Location sent in query (fragment) mode parses to the URI's own parameters followed by exactly the answer's parameters, whatever bytes they contain. (Violated for URIs ending in '?'.)", "quantifier": "every redirect URI and every parameter map", "why_tests_cant": "infinite domain; codec round trip", "anchors": ["authorization/response.go:Connector", "authorization/response.go:Success", "authorization/response.go:Error"]}
{"id": "C45", "title": "Form-post answers cannot be broken out of by values", "statement": "In form_post mode no parameter value can introduce markup: the emitted document has one input element per parameter whose value attribute decodes to the value exactly. (The action attribute is not escaped: violated for redirect URIs containing a double quote.)", "quantifier": "every URI, parameter map and iteration order", "why_tests_cant": "all byte strings", "anchors": ["authorization/response.go:render"]}
{"id": "C46", "title": "Requests survive being carried through the login page", "statement": "DecodeRequest(Encode(r)) = r for every request r whose strings are valid UTF-8.", "quantifier": "every request value", "why_tests_cant": "codec round trip over an infinite domain", "anchors": ["authorization/request.go:Encode", "authorization/request.go:DecodeRequest", "flow/flow.go:MarshalJSON"]}
{"id": "C47", "title": "Scope strings behave as lists of words", "statement": "Include, IncludeAll, Remove, Same and Sort agree with membership, subset, filtering, permutation and sorting of the space-separated words; Remove removes every occurrence and nothing else.", "quantifier": "every scope string", "why_tests_cant": "infinite domain", "anchors": ["scope/util.go"]}
{"id": "C48", "title": "Prompt validation is exact", "statement": "prompt.Validate accepts a string iff all its words are among none/login/consent/select_account and none is not combined with another one.", "quantifier": "every string", "why_tests_cant": "infinite domain", "anchors": ["prompt/util.go:Validate"]}
{"id": "C49", "title": "OAuth errors render consistently", "statement": "Error type names are pairwise distinct, every error has a 4xx or 5xx status, server_error is 500, and the JSON, query and header renderings determine type, description and URI. The names are the ones RFC 6749, RFC 6750 and OpenID Connect Core register, with their statuses.", "quantifier": "every error type, description, URI, state", "why_tests_cant": "all strings", "anchors": ["oauth_error/errors.go"]}
{"id": "C50", "title": "Basic credentials made by this library are read back", "statement": "For every user id and password without ':' problem, the header built by basic_auth.Header is read by the endpoint as the same pair. (Holds when QueryEscape leaves both unchanged; violated otherwise because the server does not unescape.)", "quantifier": "every id and password", "why_tests_cant": "codec round trip", "anchors": ["basic_auth/util.go:Token", "basic_auth/util.go:FindClientCredential"]}
{"id": "C51", "title": "The JWK endpoint publishes exactly the keys registered before Handler()", "statement": "The published set has exactly one entry per key id, the last key added under it before Handler was called, and later additions do not change it.", "quantifier": "every sequence of additions and requests", "why_tests_cant": "all histories", "anchors": ["jwk_endpoint.go", "crypto/key.go:PublicKeysJWK"]}
{"id": "C52", "title": "Client secrets never reach the logs", "statement": "No log call of the token endpoint or the grants carries a presented client_secret or PKCE verifier as an attribute; (violated for user passwords, which are logged by the password grant when the user is not found).", "quantifier": "every request and data-layer behaviour", "why_tests_cant": "all executions", "anchors": ["token_endpoint.go", "grant/password.go", "log/text.go"]}
{"id": "C53", "title": "End to end: tokens trace back to a consent", "statement": "In any history of a system made of the authorization endpoint, the token endpoint and the bundled in-memory store, every token issued for a code was issued to the client the code was created for, presenting the redirect URI of the authorization request that created it.", "quantifier": "every history of authorization completions and token requests", "why_tests_cant": "unbounded histories of two cooperating endpoints", "anchors": ["authorization_endpoint.go", "token_endpoint.go", "grant/authorization_code.go", "test_helper/store.go"]}
{"id": "C54", "title": "Expired codes are refused", "statement": "An authorization_code exchange fails when the session is older than its expires_in. (Violated: the grant never looks at the session's age; only the data layer can refuse it.)", "quantifier": "every session and time", "why_tests_cant": "all times", "anchors": ["grant/authorization_code.go:AuthorizationCode", "bridge/interface.go:AuthSession"]}
{"id": "C55", "title": "Log levels filter and label correctly", "statement": "The default logger prints a message iff its level is at least the configured one, and distinct levels have distinct labels. (Filtering holds; labels violated: error and fatal are labelled DEBUG.)", "quantifier": "every level pair", "why_tests_cant": "finite but complete table", "anchors": ["log/logger.go"]}
{"id": "C56", "title": "When the authorization endpoint can crash", "statement": "HandleRequest panics only if the redirect URI cannot be parsed by url.Parse or the data layer / callbacks hand out a nil object, and a panicking run has sent no response. (The unrestricted claim that an error of the data layer never crashes the endpoint is violated: an unclassified error with a nil client is dereferenced.)", "quantifier": "every request, policy, data layer, JWT library and execution", "why_tests_cant": "ranges over every combination of answers of the data layer", "anchors": ["authorization_endpoint.go:HandleRequest", "authorization/response.go"]}
{"id": "C57", "title": "prompt=none policies are enforced", "statement": "With prompt=none nothing is issued unless the client's none-prompt policy is satisfied: never under the policy that forbids it; only with a confirmed login session under the session policy; only with a non-empty login_hint that the login session's subject matches (and a confirmed login) under the login-hint policy; only with an unexpired id_token_hint signed with the client's ID-token key whose subject the login session matches under the id-token-hint policy.", "quantifier": "every request, policy, data layer, JWT library and execution", "why_tests_cant": "the combinations of hints, users, signatures and policies are unbounded", "anchors": ["authorization_endpoint.go:HandleRequest", "prompt/prompt.go"]}
{"id": "C58", "title": "Token answers are readable JSON documents", "statement": "Every answer of the token endpoint to a POST request is one JSON object with distinct members: either a token response (token_type, access_token, expires_in, refresh_token, scope, id_token and no error member) or an error (type, description, URI and no access_token), and what a client reads in it are the values issued, whatever bytes they contain (ill-formed UTF-8 is replaced by U+FFFD). No body contains the bytes <, > or &, so none can be read as markup.", "quantifier": "every request, execution and string value", "why_tests_cant": "ranges over all byte strings and all executions", "anchors": ["token_endpoint.go:success,fail,failWithAuthHeader", "grant/interface.go:Response", "oauth_error/errors.go:JSON"]}
{"id": "C59", "title": "What is recorded about assertions is true", "statement": "Whenever the token endpoint records an assertion with the data layer (client, jti, iat, exp), those values are the claims of an assertion presented in this request that verifies under the key of a client found before, for that client, and that is current. (Violated as a converse: a refused assertion may leave a record, so whoever holds an assertion addressed to another server can burn its jti.)", "quantifier": "every request, JWT library, data layer and execution", "why_tests_cant": "ranges over every token and every answer of the data layer", "anchors": ["assertion/error.go:HandleAssertionError", "token_endpoint.go", "grant/jwt.go"]}
{"id": "C60", "title": "The issuer of an assertion is checked (RFC 7523)", "statement": "A client assertion or JWT grant whose iss claim is not the authenticated client is refused. (Violated in both places: iss is never read.)", "quantifier": "every assertion", "why_tests_cant": "an attacker chooses the claims", "anchors": ["token_endpoint.go:validateClientByAssertion", "grant/jwt.go", "assertion/error.go"]}
{"id": "C61", "title": "The grants are offered under their registered names", "statement": "An endpoint that supports the shipped handlers, in any order and with repetitions, offers the four grants of RFC 6749 under their registered names exactly if it supports them; a JWT bearer grant is offered under the URN of RFC 7523. (The last part is violated: that grant type is always refused as unsupported.)", "quantifier": "every sequence of Support calls and every request", "why_tests_cant": "configurations are unbounded", "anchors": ["grant/jwt.go:TypeJWT", "grant/authorization_code.go:TypeAuthorizationCode", "token_endpoint.go:Support"]}
{"id": "C62", "title": "Clients that follow RFC 7636 are protected by it", "statement": "A client that sends code_challenge with the authorization request and code_verifier with the token request is protected against a stolen code, or refused. (Violated: neither parameter has any influence on any run; a whole flow with a wrong verifier succeeds.)", "quantifier": "every pair of requests that differ in these parameters only, every execution", "why_tests_cant": "it is a statement about the absence of influence of a parameter", "anchors": ["authorization_endpoint.go:HandleRequest", "grant/authorization_code.go"]}
{"id": "C63", "title": "Endpoints see exactly the parameters they know", "statement": "What the token endpoint does depends only on the method, the known form parameters and three headers; what the authorization endpoint does depends only on the known parameters. Query parameters cannot override the body of a POST request and unknown parameters change nothing. (Violated: repeated parameters are accepted, the first one counts.)", "quantifier": "every pair of requests, every execution", "why_tests_cant": "noninterference between all requests", "anchors": ["token_endpoint.go:Handler", "authorization_endpoint.go:HandleRequest"]}
{"id": "C64", "title": "Completing and cancelling act for a request that was validated", "statement": "If the request that Continue hands to CompleteRequest or CancelRequest is one that HandleRequest showed on a screen, then consent is recorded for that request's client and permitted scope, sessions hold its redirect URI, nonce and verifier, and the answer goes to its approved redirect URI with its state and an allowed response mode. (Violated without that assumption: the stored request is never checked again.)", "quantifier": "every pair of executions of HandleRequest and CompleteRequest/CancelRequest", "why_tests_cant": "relates two arbitrary executions through a value the application stores", "anchors": ["authorization_endpoint.go:HandleRequest", "authorization_endpoint.go:CompleteRequest", "authorization_endpoint.go:CancelRequest"]}
{"id": "C65", "title": "Every error has a reason, and requests in order are served", "statement": "HandleRequest answers with an error only for a reason of the named kind: a malformed parameter, a flow or scope the client may not use, a failed call, or, with prompt=none, a missing login, consent or hint. An error screen names its reason too: no or unknown client_id, no redirect_uri, a redirect_uri the client may not use, or a failed client lookup. An approved, well-formed request of a client that may make it, with no failing call, ends with a screen for the user or with exactly what was asked for.", "quantifier": "every request, policy, client, data layer and callback behaviour", "why_tests_cant": "completeness over all requests and answers", "anchors": ["authorization_endpoint.go:HandleRequest"]}
{"id": "C66", "title": "One outcome for each authorization request", "statement": "Each run of HandleRequest shows one screen or sends one answer, and the returned bool says which kind; a second outcome occurs only as an error answer after a screen that could not be shown. (Violated: if the login screen of prompt=login fails, or Continue fails, nobody is answered.)", "quantifier": "every execution that does not crash", "why_tests_cant": "needs all paths through the handler", "anchors": ["authorization_endpoint.go:HandleRequest", "authorization_endpoint.go:CompleteRequest", "authorization_endpoint.go:CancelRequest"]}
{"id": "C67", "title": "Keys are loaded from blocks with the right label only", "statement": "A public key is loaded from a text exactly if its first PEM block is labelled PUBLIC KEY and holds an RSA key; a private key exactly if the block is labelled RSA PRIVATE KEY. Which block is the first and what it holds can be read off the text: lines that are no first line of a block, a line -----BEGIN label-----, header lines, the base64 of the bytes in lines of any length with any blanks and line ends, a line -----END label----- with the same label, then anything. A key that is loaded was in the text, in such a block. No text is accepted as both, so a private key can't be published by mistake; a file behaves as its content; the PEM loaders never crash.", "quantifier": "every text, block, label, line wrapping and file content, and every behaviour of the x509 library", "why_tests_cant": "ranges over all texts and library behaviours", "anchors": ["crypto/key.go:LoadPublicKeyFromText", "crypto/key.go:LoadPrivateKeyFromText", "crypto/key.go:LoadPublicKeyFromFile", "crypto/key.go:LoadPrivateKeyFromFile"]}
{"id": "C68", "title": "Published keys are found again under their IDs", "statement": "From the document the JWK endpoint publishes, LoadPublicKeyFromJWK gives for each key ID exactly the key that was added last under it, and an error for other IDs. Loading from a key set never crashes. (The last sentence is violated: a key that cannot be materialized crashes the loader; exactly then.)", "quantifier": "every sequence of added keys, key ID and key set", "why_tests_cant": "ranges over all sequences of additions and all documents", "anchors": ["crypto/key.go:LoadPublicKeyFromJWK", "crypto/key.go:PublicKeysJWK", "jwk_endpoint.go:AddFromText", "jwk_endpoint.go:Handler"]}
{"id": "C69", "title": "Log lines cannot be forged through attributes", "statement": "A log event is printed as one line whatever its attributes hold, with no control characters but those of its four colours, and the event and its attributes can be read back from it. The label of an endpoint adds no line break. (The last sentence is violated: the authorization endpoint and the resource protector print the decoded request path as it is.)", "quantifier": "every event, attribute map, level and request path", "why_tests_cant": "injection freedom ranges over all byte strings", "anchors": ["log/text.go:EndpointLog", "log/text.go:TokenEndpointLog", "log/text.go:AuthorizationEndpointLog", "log/text.go:ProtectedResourceLog", "log/logger.go"]}
{"id": "C70", "title": "Answers cannot be split", "statement": "No response header of the token endpoint, and no challenge of the resource protector, contains a control character; what the authorization endpoint adds to the approved redirect URI consists of URL-safe characters only, whatever the parameters hold.", "quantifier": "every request, error, realm and parameter value", "why_tests_cant": "injection freedom ranges over all byte strings", "anchors": ["oauth_error/errors.go:Header", "token_endpoint.go:Handler", "resource_protector.go:ValidateWithScopes", "authorization/response.go"]}
{"id": "C71", "title": "Served requests trace back to the user", "statement": "A protected request that is let through is served under the user and client of an authorization for which, unless somebody held a code or a token of it at the start, that user let that client act in the same run of the system: by password, as the client's owner, by a signed assertion of the client, by completing an authorization request while logged in, or by an earlier consent on record while logged in; whatever codes, tokens and refreshes lie in between.", "quantifier": "every interleaving of any number of calls of all entry points, every data layer that keeps its promises", "why_tests_cant": "ranges over all interleavings and histories of all entry points", "anchors": ["resource_protector.go:Validate", "token_endpoint.go:Handler", "authorization_endpoint.go:HandleRequest", "authorization_endpoint.go:CompleteRequest", "grant"]}
{"id": "C72", "title": "Served scopes were agreed to", "statement": "The scope a protected request is served with is exactly the scope that the user let the client have on one occasion: the scope of a password, client-credentials or assertion request that the client may make, or of the authorization request the user completed.", "quantifier": "every interleaving of any number of calls of all entry points, every data layer that keeps its promises, every authorization made during the run", "why_tests_cant": "ranges over all interleavings and histories of all entry points", "anchors": ["resource_protector.go:Validate", "grant", "authorization_endpoint.go:CompleteRequest"]}
{"id": "C73", "title": "A token keeps the scope it was issued with", "statement": "Requests with one access token are always served with the scope that it was issued for. (Violated: the scope is that of the authorization, which later agreements between the same user and client replace; it holds as long as they agree on one scope only.)", "quantifier": "every history of issuing, agreeing and using", "why_tests_cant": "ranges over all histories", "anchors": ["resource_protector.go:Validate", "test_helper/store.go:CreateOrUpdateAuthInfo"]}
{"id": "C74", "title": "Clients are isolated from each other", "statement": "As long as no call acts for a client (by authenticating as it at the token endpoint, or by making or completing an authorization request in its name), no call changes, removes or replaces an authorization given to that client, a token of such an authorization, or a code session of such an authorization, whatever other clients and users do, including presenting the client's codes and tokens.", "quantifier": "every interleaving of any number of calls of all entry points, every data layer that keeps its promises", "why_tests_cant": "ranges over all interleavings and histories of all entry points", "anchors": ["token_endpoint.go:Handler", "grant", "authorization_endpoint.go:HandleRequest", "authorization_endpoint.go:CompleteRequest", "test_helper/store.go"]}
{"id": "C75", "title": "Refusals do not tell what belongs to others", "statement": "The answer to a token request is byte for byte the same whether the client id is unknown or the secret is wrong; whether a code does not exist, or belongs to another client, or to a withdrawn authorization; and likewise for refresh tokens. (Violated for refresh tokens that have expired: whoever presents one is told so, before it is looked at whose it is.)", "quantifier": "every pair of requests, every pair of answers of the data layer", "why_tests_cant": "is about pairs of runs, for all requests and all data layers", "anchors": ["token_endpoint.go:validateClientBySecret", "grant/authorization_code.go:AuthorizationCode", "grant/refresh_token.go:RefreshToken"]}
{"id": "C76", "title": "Tokens that were given out work until they expire", "statement": "When a token request, the user's agreement, or an authorization request that needs no new consent is answered with an access token, the token is on record for the client that asked, with the lifetime and scope announced. From then on, whatever other clients and users do at the same time, a protected request that presents the token before it expires is let through, identified as that user, client and scope, as long as no other call acts for that client.", "quantifier": "every token request and every completed authorization request, alone or amid other calls, every interleaving of any number of later calls of all entry points, every data layer that keeps its promises", "why_tests_cant": "is a liveness-like guarantee over all interleavings and histories", "anchors": ["token_endpoint.go:Handler", "grant", "authorization_endpoint.go:CompleteRequest", "resource_protector.go:Validate", "test_helper/store.go", "authorization_endpoint.go:HandleRequest"]}
{"id": "C77", "title": "Codes that were sent can be redeemed", "statement": "When the user agrees, or has agreed before and is not asked again, and the answer carries a code, the code is on record for the client with the redirect URI and code challenge of its request. From then on, whatever other clients and users do at the same time (including presenting the same code), the client's own token request with the code, the same redirect URI and the right code verifier is answered with success, as long as no other call acts for the client and no code is generated twice.", "quantifier": "every authorization request completed by CompleteRequest or by HandleRequest itself, alone or amid other calls, every token request, every interleaving of any number of later calls of all entry points, every data layer that keeps its promises", "why_tests_cant": "is a liveness-like guarantee over all interleavings and histories", "anchors": ["authorization_endpoint.go:CompleteRequest", "token_endpoint.go:Handler", "grant/authorization_code.go:AuthorizationCode", "test_helper/store.go", "authorization_endpoint.go:HandleRequest"]}
{"id": "C78", "title": "Bounded work per request", "statement": "Whatever a request contains and whatever the data layer answers, handling it makes a constant number of data-layer calls (token endpoint: at most 8; authorization request: 6; the user's agreement: 5; cancelling: 0; protected resource: 2), makes at most one token, stores at most one session, records at most one authorization, disables at most one session, and writes at most 8 log entries; so n requests, interleaved in any way, make at most n tokens, sessions and authorizations.", "quantifier": "every request, every answer of the data layer, every interleaving of any number of calls, every crash point", "why_tests_cant": "the bound must hold for every request and every answer of the data layer", "anchors": ["token_endpoint.go:Handler", "grant", "authorization_endpoint.go:HandleRequest", "authorization_endpoint.go:CompleteRequest", "authorization_endpoint.go:CancelRequest", "resource_protector.go:Validate"]}
{"id": "C79", "title": "ID tokens of both endpoints agree", "statement": "When a client gets an ID token together with a code (hybrid flow) and later redeems the code, the ID token it gets then agrees with the first: same issuer, same subject, same audience (the client), same nonce and same time of authentication; the first one's c_hash is the hash of that very code. In every flow the redeemed ID token carries the nonce and time of authentication recorded when the code was made.", "quantifier": "every interleaving of any number of calls of all entry points, every data layer that keeps its promises, every request", "why_tests_cant": "relates two answers given at different times by different endpoints, over all histories", "anchors": ["authorization_endpoint.go:HandleRequest", "authorization_endpoint.go:CompleteRequest", "grant/authorization_code.go:AuthorizationCode", "id_token/id_token.go", "test_helper/store.go"]}
{"id": "C80", "title": "Refresh tokens that were given out work until they expire", "statement": "When a token request is answered with success, the refresh token in the answer is on record. From then on, whatever other clients, users and resource servers do, a token request of the same client that presents it is answered with success as long as the scope in the answer includes offline_access, the refresh token has not expired, and nothing else is done for that client in the meantime.", "quantifier": "all data layers that keep their promises (the bundled one included), all histories before, all interleavings with any number of other requests", "why_tests_cant": "other requests can interleave between the lookups of the refresh request and its update in arbitrarily many ways", "anchors": ["grant/refresh_token.go:RefreshToken", "grant/grant.go", "token_endpoint.go:Handler", "test_helper/store.go:RefreshAccessToken", "test_helper/store.go:FindOAuthTokenByRefreshToken"]}
{"id": "C81", "title": "Withdrawing an authorization takes effect", "statement": "After an authorization has been withdrawn in the data layer, no request that begins later gets a token, a code or a refresh under it, and none that presents an access token, an authorization code or a refresh token belonging to it is served, whatever requests were under way at that moment and however everything interleaves; what can bring it back is a CreateOrUpdateAuthInfo call, which is made only when the user agrees (again). A request that had looked the authorization up before may still be answered with a token, which then opens nothing.", "quantifier": "all data layers that report withdrawn authorizations as such, all requests under way at the withdrawal (at any point of their runs), all interleavings with any number of later requests", "why_tests_cant": "the requests that were under way can be at any point of their runs, and interleave with later ones in arbitrarily many ways", "anchors": ["resource_protector.go:Validate", "grant/authorization_code.go", "grant/refresh_token.go", "authorization_endpoint.go:HandleRequest", "bridge/interface.go:FindActiveAuthInfoById", "bridge/interface.go:IsActive"]}
{"id": "C82", "title": "Parameters arrive as they were sent", "statement": "The parameters the endpoints work with are exactly those the client wrote in the query and in the body, however it escaped them: components that stand for nothing (empty, malformed escapes, semicolons) are left out and nothing is added; of several values the first one counts, the body going before the query where both are looked at; two requests that differ only in escaping are treated alike; the fields of a multipart/form-data body are read as they were sent as well, whatever surrounds them and however their headers are spelled, and for them the query goes before the body; a body that is not announced as a form, or is urlencoded and over 10 MB, counts for nothing, and among well-formed Content-Type headers those announce an urlencoded form that name its media type, whatever the parameters, unless a parameter is there twice with different values. A code or token sent in the redirect's query can be read from it by anyone who reads forms, and sent back it arrives as the same code.", "quantifier": "all methods, headers, query strings and bodies, all ways of escaping a list of parameters, all multipart bodies that follow RFC 2046 and RFC 7578", "why_tests_cant": "there are unboundedly many ways to escape the same parameters and unboundedly many malformed forms", "anchors": ["token_endpoint.go:Handler", "grant/authorization_code.go", "authorization_endpoint.go:HandleRequest", "resource_protector.go:Validate", "authorization/query_response_handler.go"]}
{"id": "C83", "title": "ID tokens are JWTs that clients can read and verify", "statement": "An ID token handed out by the token or authorization endpoint is three base64url parts: a JSON header naming the client's algorithm, the type JWT and the key name if there is one; a JSON object with exactly the claims it was made from (in a code exchange iss, aud, sub, exp, nonce, iat, auth_time), no name twice; and a signature over the first two parts with the client's algorithm and key (for shared secrets the HMAC of RFC 2104), never 'none'. The library accepts its own tokens under the matching key.", "quantifier": "every client (algorithm, key, key name), every claim set with 64-bit numbers, every text value (any bytes), every code exchange and history of answers, every public-key library", "why_tests_cant": "It must hold for every subject, nonce and issuer text (escaping, invalid UTF-8), every number and every key length; unit tests parse a few tokens back with the same library.", "anchors": ["id_token/id_token.go: Gen", "grant/authorization_code.go: AuthorizationCode", "authorization_endpoint.go: CompleteRequest"]}
{"id": "C84", "title": "An ID token can be sent back as id_token_hint", "statement": "If a client with the policy 'prompt=none is allowed if the id_token_hint matches' sends back an ID token that was issued to it, about the current user and not expired, the request is served. Violated for clients with RSA keys: the endpoint verifies the hint with the client's private key, which the JWT library rejects, so nothing is ever issued to them under this policy.", "quantifier": "every client with a shared secret (every client with an RSA key for the violation), every ID token, request, policy and history of answers", "why_tests_cant": "It relates tokens issued at one endpoint at one time to requests at another endpoint at any later time; tests check hints with hand-made tokens only.", "anchors": ["authorization_endpoint.go: HandleRequest (lines 720-790)", "id_token/id_token.go: Gen"]}
{"id": "C85", "title": "Only genuine assertions are accepted", "statement": "Before the token endpoint acts on a JWT assertion, as client credentials or as a grant, the assertion has been found to consist of three base64url parts, a header naming an algorithm, and a genuine signature over the first two parts under a key the client has for that algorithm and key name; its times are numbers and in range, its exp is there, its jti has been recorded. An assertion naming an algorithm there is none of is refused. 'none' is never accepted, an HMAC only with a shared secret. An assertion not made of three parts crashes the handler. exp 0 counts as 'no limit' (violated).", "quantifier": "every text sent as an assertion, every key a client may have, every history of answers and clock readings, every public-key library", "why_tests_cant": "Forged, truncated, re-encoded and re-ordered tokens are infinitely many; tests try a handful.", "anchors": ["token_endpoint.go: validateClientByAssertion (lines 150-200)", "grant/jwt.go: JWT", "assertion/error.go: HandleAssertionError"]}
{"id": "C86", "title": "JSON is read and written as RFC 8259 has it", "statement": "The headers of tokens are accepted exactly if they are JSON texts, the claims exactly if they begin with a JSON object, encoded requests exactly if they are JSON texts, with at most 10000 arrays and objects inside one another (deeper ones are refused everywhere); and what is read is what the text says: white space, member order, escapes and surrogate pairs (broken UTF-8 and lone surrogates become U+FFFD), and of a number the nearest float64 rounded towards zero, exact for whole numbers up to 2^53 and not beyond. No text has two meanings. Everything goidc writes as JSON is JSON with the same members and values.", "quantifier": "every byte string as input, every value as output", "why_tests_cant": "Acceptance and meaning range over all texts of any length and nesting (escapes, truncated UTF-8, leading zeros, exponents, rounding ties, trailing commas); tests try some.", "anchors": ["authorization/request.go: DecodeRequest", "authorization/request.go: Encode", "token_endpoint.go: validateClientByAssertion", "grant/jwt.go: JWT", "authorization_endpoint.go: HandleRequest (id_token_hint)"]}
{"id": "C87", "title": "Errors of the token endpoint have reasons, and requests without one are served", "statement": "Whatever POST request the token endpoint answers with an error, there is a fault that the status, the error code and the description name: a missing parameter, an unsupported grant type, missing or wrong client credentials, a grant type the client may not use, a defect of the assertion (format, algorithm, key, signature, times, exp, aud, replay), or a defect of the code, refresh token, user, scope or PKCE answer, or a refusal or breakdown of the data layer at that step. Conversely, a request that is served shows no such fault: a completed POST run ends in 200 exactly if there is none.", "quantifier": "every POST request, every configuration with the bundled grants, every data layer and JWT library that marshals claims as a map, every run", "why_tests_cant": "The faults combine freely and each has its own code and text; that every error names a fault that is really there and that no fault is overlooked ranges over all requests and all answers of the data layer.", "anchors": ["token_endpoint.go: Handler", "token_endpoint.go: validateClientByCredential", "token_endpoint.go: validateClientByAssertion", "grant/authorization_code.go: AuthorizationCode", "grant/refresh_token.go: RefreshToken", "grant/password.go: Password", "grant/client_credentials.go: ClientCredentials", "grant/jwt.go: JWT", "assertion/error.go: HandleError"]}
{"id": "C88", "title": "The code flow works from end to end, amid other calls", "statement": "The user approves an authorization request; the client reads the code out of the Location (query or fragment) or out of the form posted to it, sends it to the token endpoint over HTTP with the same redirect URI (and the right code verifier), reads the access token out of the JSON it is answered with, and presents the token to the resource. Whatever other clients and users do at the same time, before and in between, the token request is answered with success with the scope the user approved, and until the token expires the resource lets the request through as the user, client and scope of the authorization the user gave.", "quantifier": "every history of calls before, every interleaving of any number of calls of all entry points in each of the three phases that do not act for this client, every response mode, every wire form of the token request, every data layer that keeps its promises", "why_tests_cant": "it composes three endpoints, their wire formats and the data layer over all interleavings; a test fixes one flow and one schedule", "anchors": ["authorization_endpoint.go: CompleteRequest", "authorization/response_handler.go", "token_endpoint.go: Handler", "grant/authorization_code.go: AuthorizationCode", "resource_protector.go: Validate", "test_helper/store.go"]}
{"id": "C89", "title": "The hashes are SHA-2 as FIPS 180-4 defines it", "statement": "The code challenge a client must present, the at_hash and c_hash of an ID token and the message authentication code under a shared secret are computed with SHA-256, SHA-384 and SHA-512 exactly as FIPS 180-4 defines them over the bits of the message, whatever its length, and with HMAC as RFC 2104 defines it over those: a code with an S256 verifier is exchanged only for the base64url of the verifier's digest, a hash claim is the base64 of the left half of the digest the algorithm's name ends in, and a signature is accepted under a shared secret if and only if it is the HMAC.", "quantifier": "every message, verifier, token, key and signature, of any length; every algorithm name", "why_tests_cant": "known-answer tests cover a handful of lengths; padding and block boundaries must be right for every length", "anchors": ["pkce/crypto.go: S256Encode", "pkce/verifier.go: Verify", "id_token/id_token.go: Hash", "assertion/error.go: HandleAssertionError", "grant/authorization_code.go: AuthorizationCode"]}
{"id": "C90", "title": "Every stored request is read as exactly one request", "statement": "DecodeRequest is a total function and reads any string as follows: the base64url groups up to the first that is none (line breaks skipped); if those bytes are one JSON object (in which at most 10000 arrays and objects are inside one another), each field takes the value of the last member of its name (letters in any case) that has the field's type, members of other names and types being ignored; the members of all objects given for the flow count together, null takes the flow away, and a flow type that is not one of the four names written without escapes ends the reading there; anything else is read as the empty request. In particular no error is ever reported: garbage and an encoded empty request cannot be told apart.", "quantifier": "every byte string, every JSON document in it", "why_tests_cant": "the string travels through the browser, so every string can arrive; duplicates, cases, types and truncations are unboundedly many", "anchors": ["authorization/request.go: DecodeRequest", "authorization/request.go: Request", "flow/flow.go: FlowType.UnmarshalJSON", "flow/flow.go: Flow"]}
{"id": "C91", "title": "The bundled server does what its administrator said", "statement": "For every history of a bundled store since it was cleared: FindUserId answers exactly the users created, each with its own number; FindClientById answers exactly the clients created, as created last, with the grant types added since; a token request that authenticates with a secret (no assertion) is answered 200 by the password grant exactly if the client it names was created with that secret and allowed the grant type, and a user was created with that name and password, both not empty; by the client-credentials grant exactly if such a client has an owner of number 0 or more. FindAuthSessionByCode, FindActiveAuthInfoById, FindOAuthTokenByAccessToken and FindOAuthTokenByRefreshToken answer exactly what the history left: a code the session made for it last unless it was disabled or cleared since, an access token the token made or renewed under that string unless it was renewed or cleared since. So a code exchange is answered 200 exactly if such a client presents a code that stands for one of its authorizations, with the redirect URI and the challenge that fit, and no code is exchanged a second time unless it was made again; a refresh is answered 200 only for a standing token that carries the refresh token, is not too old and belongs to an authorization of that client with offline access, and always if every token the store may find is such. An assertion is answered 200 as a grant exactly if it verifies under the client's own secret, is in force whenever the clock is read, has an exp, is addressed to this server and names a user that was created: the client may name any. The resource protector over this store lets a request through exactly if it carries a standing access token that is in force whenever the clock is read, for a standing authorization with every scope listed for the path, and names that authorization's owner, client and scope; otherwise it answers 400, 401 or 403 and nothing else. An access token answered by the token endpoint opens the resource for the client that asked, with the scope announced, until it expires, unless it or its authorization is replaced or cleared; a replaced or cleared one opens nothing unless it is given again. HandleRequest over this store never issues anything by itself, because the store remembers no consent. Assertions of its clients are HMACs under the client's secret. After ClearAuthData the strings of old tokens become tokens of others.", "quantifier": "every history of administration and data operations by any endpoint, every request, every clock", "why_tests_cant": "histories of creations, permissions, grants and clearings are unbounded, and the answer depends on all of them", "anchors": ["test_helper/store.go: NewTestStore, CreateNewUser, CreateNewClient, ClearAuthData, ClearAll", "test_helper/client.go: NewTestClient, AllowToUseGrantType, CanUseGrantType, MatchSecret, GetAssertionKey", "grant/password.go: Password", "grant/client_credential.go: ClientCredentials", "token_endpoint.go: Handler", "test_helper/store.go: CreateOAuthToken, RefreshAccessToken, CreateAuthSession, DisableSession, CreateOrUpdateAuthInfo", "grant/authorization_code.go: AuthorizationCode", "grant/refresh_token.go: RefreshToken", "grant/jwt.go: JWT", "resource_protector.go: Validate, ValidateWithScopes", "test_helper/store.go: FindOAuthTokenByAccessToken, FindActiveAuthInfoById"]}
{"id": "C92", "title": "Authorization errors say what is wrong", "statement": "Every error that HandleRequest sends to a client carries the error code and the exact error_description of the first fault of the request, in the documented order (response_type, response_mode, flow permission, display, max_age, prompt, scope, nonce, code_verifier), or, if the request has no fault, of what went wrong later (login, consent, hints, a failing callback). A request has a fault exactly if it is not well formed or its client may not use the flow or the scope; then an error is sent, the user is not asked and nothing is issued. CompleteRequest fails with server_error and CancelRequest with access_denied, both without description.", "quantifier": "every request, client, policy and every answer of the data layer, the callbacks and the clock", "why_tests_cant": "requests may have any combination of faults, and which one is reported depends on all the checks before it", "anchors": ["authorization_endpoint.go: HandleRequest (149-978), CancelRequest, CompleteRequest", "authorization/response_handler.go: Error", "authorization/policy.go"]}
{"id": "C93", "title": "Breakdowns are reported to the operator", "statement": "When a method of the data layer is not provided, fails with an error of its own or answers nothing, the very next thing that the token endpoint and the resource protector do is to write a line about it: at error, warning and error level, of kind InterfaceUnsupported, InterfaceServerError and InterfaceError, starting with the method; and such lines are written for nothing else (but for an issuer that is not provided). Every answer of the token endpoint directly follows a line, which says 'granted' exactly if the answer is 200; a 500 comes with exactly one line at warning level or above in the run, other answers come with none, but for a client without owner, a code that cannot be disabled and an assertion issued in the future. The authorization endpoint reports every error of a callback, but for ShowLoginScreen's, in the very next step. (Violated: the method named is not always the one called (DisableCode, FindAccessTokenByRefreshToken, LoginUserIsMatchedToHint); the protector crashes silently if the lookup of the authorization answers nothing; the authorization endpoint is silent about the data layer once the client was found.)", "quantifier": "every request, endpoint configuration and every answer of the data layer, the callbacks and the clock", "why_tests_cant": "every call in every grant can break down in three ways; the claim is about all runs", "anchors": ["token_endpoint.go", "grant/*.go", "assertion/error.go", "resource_protector.go: Validate", "authorization_endpoint.go", "log/text.go"]}
{"id": "C94", "title": "Browsers are sent to the registered URI", "statement": "When the authorization endpoint answers by redirection and the redirect URI is one that RFC 3986 allows (any scheme, with or without authority, user, port, path, query and fragment), the browser gets a status of 302 and exactly one Location, which is that URI byte by byte, followed only by characters that need no escaping; the parameters can be read from it; for GET requests the body is one link to the same place that cannot be broken out of, for others there is none. For whatever begins with a scheme the same holds with bytes that are not ASCII escaped; and whatever a client registers, the browser is sent there or stays on this server. With URIs of RFC 3986 none of the three entry points panics unless the application answers nil. (Violated otherwise: a registered URI that url.Parse refuses makes the handler panic after the client approved it; a relative one is rewritten.)", "quantifier": "every redirect URI, set of parameters, response mode, request and every answer of the application", "why_tests_cant": "the claim ranges over all URIs of the grammar and all parameter values; url.Parse and http.Redirect look at and may rewrite the URL", "anchors": ["authorization/response.go: Connector, Success, Error", "authorization_endpoint.go: HandleRequest, CompleteRequest, CancelRequest"]}
{"id": "C95", "title": "Clients can read the challenges", "statement": "Every WWW-Authenticate header can be read in at most one way by the grammar of RFC 7235. A Bearer challenge made from printable texts reads as exactly realm (if any), error code, description (if any) and error URI (if any), whatever quotes, commas and backslashes the texts hold. A request the protector refuses is answered with a bare 500, or with exactly one challenge that reads as the configured realm, the error code and description of the reason it was refused for, and the configured URI, together with the matching status (400 no token, 401 unknown, inactive or expired token, 403 naming a missing scope). The token endpoint challenges exactly when it answers 401, with scheme Basic and the configured realm, if that has no double quotes and backslashes. (Refuted beyond that: the token endpoint does not escape its realm, so a double quote makes the challenge unreadable and a backslash is lost; control characters in Bearer challenges are read as letters; the description for a missing scope holds double quotes, which RFC 6750 forbids.)", "quantifier": "all errors, realms and URIs of printable ASCII; all protectors, token endpoints, requests, scope maps and data-layer answers", "why_tests_cant": "the texts come from configuration and from the scopes of the application; whether the header still parses depends on every character in them", "anchors": ["oauth_error/errors.go: Header", "resource_protector.go: Validate, ValidateWithScopes, unauthorize", "token_endpoint.go: failWithAuthHeader"]}
{"id": "C96", "title": "All flows work from end to end, and renewals never run out", "statement": "Whatever flow a client uses, what it reads from goidc's answer works: when CompleteRequest answers after the user approved, or HandleRequest answers without asking the user, an access token in that answer (implicit and hybrid flows) opens the protected resources until it expires, identified as the authorization just given, and a code in it (code and hybrid flows) can be redeemed at the token endpoint by the client that presents it with the redirect URI and the verifier. The redemption is answered with success, announces the scope approved and the lifetime on record, and gives an access token that opens the resources. When the response carries a refresh token for a scope with offline_access, the client presenting it before it expires is given another token that opens the resources, and then another, for as long as it keeps renewing. All this amid any other calls to the library, interleaved in any way, as long as none of them acts for that client.", "quantifier": "all data layers that keep and return what they are told (the bundled in-memory store is one), all histories and interleavings of any number of calls before, between and during the steps, all flows, response modes, requests, clients, scopes and configurations of the bundled grants, any number of renewals", "why_tests_cant": "A unit test plays one flow, alone, against one store, and renews once. That the answer of every flow is usable by the client that reads it, that everything it announces is honoured later, that other calls in flight never get in between, and that renewals can go on without end, are statements about all histories.", "anchors": ["authorization_endpoint.go: CompleteRequest, HandleRequest", "token_endpoint.go: TokenEndpoint", "grant/authorization_code.go", "grant/refresh_token.go", "resource_protector.go: Validate", "test_helper/store.go"]}
