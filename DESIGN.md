# A Rocq model of lyokato/goidc

## 1. Shape of the model

goidc is a set of handlers that talk to the outside: a data layer
(`bridge.DataInterface`), UI callbacks (`bridge.AuthorizationCallbacks`), a
logger, clocks and an `http.ResponseWriter`.  `Core.v` lists those operations
(`op`, with an answer type `ans o` for each) and models a handler as a tree
(`prog A`): return, panic, or perform an operation and continue with whatever
was answered.  Nothing constrains the answers, so a theorem over all
executions (`exec p tr r`: program, trace of operations with their answers,
outcome) ranges over every data layer, every user, every clock, every failure.

* crash points: `steps p tr p'` (every prefix of every execution);
* a concrete store: `TestStore.v` models test_helper/store.go as a transition
  relation; `World.v` has whole-request runs (`rrun`), crash prefixes (`rsteps`)
  and arbitrary interleavings of any number of requests (`psteps`);
* `Hoare.v` has the proof rules (a weakest precondition over histories with a
  guard for every performed operation).

Model files (one per Go package or file; each definition cites its lines):

| file | models |
|---|---|
| GoStr.v, Codec.v, Sha.v, Json.v, JsonParse.v, JsonFull.v, JsonTree.v | the Go standard library functions goidc calls: strings, sort, strconv, int64 wrap-around, base64, url escaping and parsing, html escaping, SHA-2, JSON |
| Utils.v | scope, prompt, flow, response_mode, pkce |
| Core.v | bridge, authorization.Request/Session/Policy, net/http requests, executions |
| OAuthError.v | oauth_error |
| IdToken.v | id_token |
| Assertion.v | assertion, control flow of jwt.Parse |
| Grants.v | grant (five handlers, response) |
| TokenEndpoint.v | token_endpoint.go |
| ResourceProtector.v | resource_protector.go |
| AuthzResponse.v, AuthzEndpoint.v | authorization/response.go, authorization_endpoint.go |
| Misc.v | basic_auth, log, jwk_endpoint.go, request codec |
| TestStore.v | test_helper/store.go |
| TestServer.v | test_helper/client.go, test_helper/store.go (administration) |

Proof files: `*Facts.v` hold lemmas, `Props*.v` hold the property theorems and
nothing but their statements, `exact`, and `Print Assumptions`; `Spec.v` holds
the small definitions used in the statements; `Examples*.v` hold the concrete
non-vacuity cases.

## 2. Trusted base

* Coq 8.16.1's kernel (and coqchk).  No axioms: every theorem in the Props
  files prints "Closed under the global context".  Only the standard library is
  used; no plugin, no functor.  (A listing of every constant loaded shows the
  opaque constants of Coq.ssr.ssrunder, which come with the standard library's
  ssreflect support; no theorem depends on them.)
* The correspondence between /repo and the model, which was made by reading:
  every definition cites the file and lines it follows.
* The models of Go's standard library in GoStr/Codec/Sha/Json (small, cited).

### Simplifications (each is repeated at the definition concerned)

* A data-layer object (client, authorization, session, token) is the value its
  getters return at the time it was handed out; getters are pure.  Client
  methods (MatchSecret, CanUse...) are arbitrary pure functions.
* The JWT library is a parameter (`jwtlib`): parsing, claim validity at a time,
  signature verification and signing are arbitrary functions; the control flow
  of `jwt.Parse` around them is modelled.  A nil id-token key is an arbitrary
  unusable key.  `Jwt.v` models golang-jwt v3.2.2 itself as an instance (`gojwt`):
  serialization, base64url, JSON, times and HMAC are computed, RSA, ECDSA and EdDSA
  signatures are oracles (C83-C85).  Of its JSON reader, numbers are int64(float64);
  the limit of 10000 nested arrays and objects is modelled (Go reports it as soon as it is
  passed, the model after reading: the text is refused either way).
* In most files url.Parse's success is an oracle (`e_url_ok`) and http.Redirect is one
  operation, so that the theorems hold for every url.Parse; the position of '?' and '#'
  is modelled.  `UrlParse.v` models both functions of Go (`go_env`, `writes`), for C94.
* The handlers get the query string and the urlencoded body parsed; Http.v models
  the parsing, of multipart bodies too (`arrives`, C82).  Of those, continuation lines
  and quoted-printable parts count as malformed, parameters like `name*` (RFC 2231)
  are not decoded, and the body is scanned as a whole, not in buffers.
* Log operations carry level, event and attribute map; message texts are not
  modelled (except by `default_log`/`endpoint_log`); the label prefix is
  added in LogLine.v.
* Writing the three common response headers follows a fixed order (a Go map).
* int-typed enumerations: values outside the declared constants are modelled
  where they change control flow (bridge errors, accept policy, prompt
  policies); flow and OAuth error types are the declared ones.
* In the model of jwk_endpoint.go the public-key loader and JWK renderer are
  oracles; Crypto.v gives them, over the x509 and jwk libraries as oracles (encoding/pem is
  modelled, Pem.v).
* Not modelled: io/, the test client
  (test_helper/http_client.go, matcher.go), wercker.yml.
* RefreshAccessToken of the test store on a token it does not hold (nil
  dereference in Go) has no transition.

## 3. Properties

For each: what is modelled and how it is proved.  "violated" means the
unrestricted English claim is false of the code: then the negation is proved as a
`_refuted` theorem with a concrete execution, and the part that does hold is
proved as a theorem with explicit hypotheses.

| id | plan |
|---|---|
| C01 | wp over `token_handler` for every endpoint (any registered handlers, also user-defined): every protected operation and status 200 is preceded by authentication of a client by the events of the same run |
| C02 | direct execution of the non-POST branch: trace has exactly a log and a 405 |
| C03 | wp with a header/status/body automaton over the whole trace; handlers are assumed not to write the response themselves (proved of the five bundled ones) |
| C04 | secret path: wp, c_can_grant; assertion path: `_refuted` by an execution |
| C05 | computation of the dispatch; `find_handler` of `te_support` |
| C06 | case analysis on `find_client_credential` and wp lifting to the endpoint |
| C07 | wp of `authorization_code`: success implies a trace of exactly the stated shape |
| C08 | wp guard: create/disable are guarded by all checks |
| C09 | counting invariant over histories (`history`: any programs, each possibly cut off by a crash) for every data layer that satisfies the laws `code_store` of SysSpec.v; the bundled store is an instance |
| C10 | counting invariant over interleavings (`psteps`) for every data layer with `strict_disable`; `_refuted` for the bundled store by a concrete schedule |
| C11 | `_refuted`: a crash prefix over the store; the converse order is proved for all crash points |
| C12 | unfolding plus base64/sha equations; stated against an independent unpadded base64url |
| C13 | `_refuted`: the observer function computes the parameter, for every verifier; `S256` and `plain` |
| C14 | induction in steps of three bytes; decoder left inverse |
| C15,C16 | wp of `refresh_token` |
| C17 | wp of the three direct grants |
| C18 | wp of `jwt_parse`+`handle_assertion_error`, for client assertions and for the JWT grant |
| C19 | `_refuted`: panic execution; and the exact set of inputs for which it does not panic |
| C20 | wp guard after a refused record |
| C21 | wp: success implies all data answers were successes; error classes by first failing answer |
| C22,C23 | claims of the signed token computed from the trace; `_refuted` for encoding |
| C24-C28 | wp of `validate`, `validate_with_scopes` |
| C29 | arithmetic on `wrap64` |
| C30-C39,C41-C43 | wp of `handle_request`, `complete_request`, `cancel_request` |
| C40 | permutation of word lists (sorting is canonical) |
| C44 | url codec round trip |
| C45 | html codec round trip, tokenizer for the emitted document |
| C46 | JSON printer/struct decoder round trip (JsonTree.v, TreePrint.v), base64url |
| C47,C48 | list lemmas about split/join/sort |
| C49 | finite case analysis and codec injectivity |
| C50 | base64 round trip |
| C51 | map lemmas and wp of `jwk_handler` |
| C52 | wp guard over log attributes (noninterference is stated as: the attributes are functions of the other inputs) |
| C53 | invariant over interleavings of all entry points for every data layer with the laws `linked_store`; the bundled store is an instance |
| C54 | `_refuted` by an execution, for every age |
| C55 | case analysis |
| C56 | exact panic analysis of `handle_request`: a predicate `safe` over programs, closed under the combinators |
| C57 | wp of the prompt=none branch; the policy is stated as a predicate on the history |
| C58 | JSON printer/parser round trip for every byte string (`repaired` in CodecSpec.v), lifted to the endpoint by C03 |
| C59 | wp guard on the recording operation in both assertion paths |
| C60,C62 | `_refuted` by executions; C62 also as noninterference for every request |
| C61 | list lemmas about `Support`; `_refuted` for every endpoint with bundled names |
| C63 | noninterference: equality of the programs for requests that agree on the known parameters |
| C64 | composition of the invariants of HandleRequest and CompleteRequest through the shown request; `_refuted` without it |
| C65 | every stage of HandleRequest carries the reason for which it stops (`justified`); completeness is its contrapositive |
| C66 | counting of outcome events by structural lemmas (`one`, `stage`); `_refuted` by executions |
| C67 | crypto/key.go modelled over x509 oracles (Crypto.v), encoding/pem modelled (Pem.v); texts specified in PemSpec.v (RFC 1421, RFC 4648), the model of pem.Decode proved to read exactly these blocks (PemFacts.v: pem_read, pem_sound) |
| C68 | composed with C51 (the published set), assuming that the jwk library reads what it writes (`reads_back`); exact crash condition |
| C69 | the JSON escaper emits no control characters (induction over UTF-8 decoding); reading back by C58's JSON round trip; labels in LogLine.v |
| C70 | wp over every header written; `go_quote`, query escaping and the two answers of C03/C30 |
| C71 | invariant over interleavings (`psteps`): every token found has an origin (creation, then refreshes), every code found has one; composed with the guards of all entry points; laws `linked_store` and `token_store`, the bundled store is an instance |
| C72 | the same for the scope of an authorization (law `scope_store`) |
| C73 | corollary of C72; `_refuted` by a run over the bundled store |
| C74 | invariant over interleavings: every operation that could touch an authorization, token or session of a client is performed by a run that acts for that client; laws `linked_store` and `separate_store` (token names are told apart), the bundled store is an instance |
| C75 | two-run theorems: the full answer is computed from the endpoint alone in each case; `_refuted` for expired refresh tokens |
| C76 | sequential run of the issuing request puts the token on record (laws `answering_store`), invariant over the later interleaving (C74's step lemma) keeps it there; with the answers this forces, the protector lets the request through; the bundled store is an instance. `PropsAmid.v`: the issuing call itself may run amid others (all grants but refresh, whose authorization no law places on record at lookup time); `C88_example` meets the hypotheses |
| C77 | the same for codes: until the client's own run disables the session, every step keeps session and authorization; with the answers this forces, the exchange succeeds; the bundled store is an instance. `PropsSilent.v` does the same for codes and tokens that HandleRequest gives out without asking (the authorization it looked up is on record and nothing in the run changes it); the bundled store has no such lookup, so the instance there is the bundled store with the lookup added. `PropsAmid.v`: the approving call itself may run amid others |
| C78 | static bound `most` on the number of operations of a kind along every path of a program, by structural recursion over the program; sums over interleavings by induction |
| C79 | invariant over interleavings (as for C53) that links the session found at redemption to the call that stored it, its nonce and time, and both authorizations' subject; `completed` (C41) and `code_exchange` (C22) give the claims on both sides; a code is stored once per run by C78's bound |
| C80 | `RefreshSpec.v` states what is asked of a data layer (`refreshing_store`) and when a refresh token is live. Proved from the interleaving semantics: thread m's lookups and its refresh get good answers because nobody else touches the client's authorization or its tokens before (`refresh_kept`), and with good answers the grant succeeds (`refresh_good`); that the refresh token in an answer is on record is part of C76_given_out_tokens_are_on_record. The bundled store qualifies because refresh tokens are named after their authorization (`renewable`). `PropsRefresh.v`. |
| C81 | `RevokeSpec.v` states what is asked of a data layer (`revoking_store`) and what acting or being served under an authorization is. Proved by an invariant over interleavings that start with arbitrary threads (`revoked_psteps`: until CreateOrUpdateAuthInfo returns the authorization it is not found active), together with the facts that every entry point acts only under authorizations it was told about (`acted_told`) and serves only after looking the authorization up (`served_told`). That requests under way may still be served is shown by a run (`_refuted`). `PropsRevoke.v`. |
| C82 | `Http.v` models url.ParseQuery (lenient), the Content-Type test (mime.ParseMediaType with parameters and quoted strings) and the 10 MB limit of net/http, from the bytes of query and body to the request of Core.v (`arrives`). `HttpSpec.v` says independently what form text stands for (`stands_for`, `component`, `form_text`) and what was sent. `content_type` is the grammar of RFC 7231 for media types. Equivalence of both by induction on the text; the rest follows, with C44 for the way back. Multipart bodies: `multipart_values` models mime/multipart's reader (delimiters, part headers, content scan, Content-Disposition), `multipart_text` is the grammar of RFC 2046/7578, and `MultipartFacts.v` proves by induction on the body that the reader returns the fields of every such text. `PropsHttp.v`. |
| C83 | JsonFull.v, Jwt.v: golang-jwt v3.2.2 as an instance gojwt of jwtlib (compact serialization, base64url, sorted JSON, HMAC; RSA/EC as oracles). JwtSpec.v: compact, says, heads, rfc2104, genuine. Proved by the JSON and base64 round-trip lemmas and a proof that hmac is RFC 2104; instance of C22 for code exchanges. |
| C84 | C65 with the JWT library of Jwt.v: what go_sign makes, go_parse and go_verify accept under the same secret. The violation: no token verifies under a private RSA key (C57). |
| C85 | C18 with the JWT library of Jwt.v; JwtRead.v proves the lenient base64url reader against a bit-level relation (base64url_of) and the member lookup against 'last member wins'. |
| C86 | JsonSpec.v: the grammar of RFC 8259 as inductive relations over bytes, UTF-8 by code points, escapes, number literals, and the nearest float64 (ties to even) in units of 2^-1074. JsonGram.v, JsonFloat.v, JsonRead.v: soundness by induction on the fuel of the readers in JsonParse.v/JsonFull.v, completeness by mutual induction on derivations, correctness and uniqueness of rounding. The limit of 10000 nested arrays and objects (`within_limit`) is part of what Go reads: `C86_nesting_limit`, for every n. JwtSpec.v, C49 and C58 are stated with this grammar. |
| C87 | FaultSpec.v: one inductive constructor per fault with its status, error and description, over the request and the answers in the run. FaultFacts.v: every error exit of the handlers yields a constructor (wp over the handler bodies). FaultIff.v: from the soundness lemmas of each grant, a served run contradicts every constructor; gojwt marshals claims sorted, hence independent of their order. |
| C88 | `EndSpec.v`: what the client sees of an answer (query, fragment, posted form, JSON document), with C44/C45/C46/C86's independent readings. `ViewFacts.v`/`AmidFacts.v`: while a call runs amid others its own answers are those of a data layer in which only it acts for the client, so what it stores is on record when it ends. `PropsEnd.v` composes C77 (amid others), C82, C86 and C76 into one theorem; the story with a thief in each phase over the bundled store meets all its hypotheses |
| C89 | `FipsSpec.v` states FIPS 180-4 over lists of bits, with the constants given as fractional parts of the roots of the primes, and RFC 2104 on top; it shares nothing with `Sha.v`. `FipsFacts.v`: the numbers and bytes of `Sha.v` compute that digest (padding, parsing, schedule, rounds by induction; the constants checked against the primes). `PropsFips.v` carries it to code challenges, hash claims and MACs |
| C90 | `JsonTree.v` models base64 decoding with errors, encoding/json's tree and the filling of a struct; `DecodeSpec.v` says declaratively over RFC 8259 texts (`JsonSpec.v`) which request a string is read as (last member of a name with a value of the type, bad flow types ending the list); `TreeRead.v`, `DecodeFacts.v`: the model computes that relation, and it is functional. `TreePrint.v` links it to C46 |
| C91 | `TestServer.v` models the client and the administration of test_helper; `ServerSpec.v` says what a history is and what was created in it; invariants over histories (`ServerFacts.v`) and refutation of every reason of C87 (`ServerGrants.v`) give the equivalences; `HistFacts.v` proves that sessions, authorizations and tokens are what stands in the history, `ServerCode.v` gives the exchange of codes and refresh tokens; `PropsGuard.v` follows the tokens to the resource protector, through the cases of C23–C26 and, from the token endpoint, C76 |
| C92 | `WhySpec.v` lists each fault with its place, error and description, independently of the code; `WhyFacts.v` steps through the program with the invariant that no earlier fault exists, and shows that a first fault exists, is unique and is absent exactly for well-formed requests (C65) |
| C93 | `ReportSpec.v` classifies answers as breakdowns and says which line is owed; `ReportFacts.v` and `ReportAuthz.v` step through all programs with a guard that looks at the last event and the next operation |
| C94 | `UrlParse.v` models url.Parse (as far as errors, scheme and authority go), path.Clean and http.Redirect; `RedirectSpec.v` gives the grammar of RFC 3986 and says what a redirected browser sees; `RedirectFacts.v`: the grammar is accepted (induction on the text of each component), anything with a scheme is sent unchanged, cleaned paths begin with one '/'; `PropsRedirect.v` combines this with C30, C44, C56, C64 and C70 |
| C95 | grammar of challenges as inductive relations (ChallengeSpec.v), unique readability by induction on the grammar, strconv.Quote shown to be a quoted string of printable text (ChallengeFacts.v), then the refusals of C25/C26 and the answers of C03 |
| C96 | ChainFacts.v extends the amid/view machinery (PropsAmid) to the refresh_token grant (view_renewed, amid_renewed). PropsChain.v states the client's view as predicates over a moment of an interleaving (opens, given, redeems, renews) and, for endless renewals, a coinductive predicate renews_for_ever whose proof is a cofixpoint over the invariant 'the token is on record, has a refresh token, and its authorization is on record'. What the client reads is what was sent by the C44/C45 decoders (query, fragment, form_post) and the JSON reader. |

`Spec.v`, `TokenSpec.v`, `ResourceSpec.v`, `AuthzSpec.v`, `CodecSpec.v`, `AssertSpec.v`, `FlowSpec.v`, `TraceSpec.v`, `IsolSpec.v`, `WorkSpec.v`, `BoundSpec.v`, `AgreeSpec.v`, `RefreshSpec.v`, `RevokeSpec.v`, `HttpSpec.v`, `JwtSpec.v`, `JsonSpec.v`, `FaultSpec.v`, `EndSpec.v`, `FipsSpec.v`, `DecodeSpec.v`, `ServerSpec.v`, `WhySpec.v`, `ReportSpec.v`, `RedirectSpec.v`, `ChallengeSpec.v`, `EndSpec.v`, `RefreshSpec.v`, `WorkSpec.v`, `SysSpec.v` and `SysSpec.v` are the only files
needed to read the statements; `Demo.v` and `SysDemo.v` hold the concrete data layers used by
the non-vacuity examples.
