(** * The bridge: data types, the operations goidc performs on the outside
    world, and the execution model.

    goidc is a library of handlers that talk to a data layer
    ([bridge.DataInterface]), to UI callbacks ([bridge.AuthorizationCallbacks]),
    to a logger, to a clock and to an [http.ResponseWriter].  A handler is
    modelled as a tree of such operations ([prog]); what the outside answers is
    completely unconstrained, so a theorem about all executions ranges over
    every data layer, including faulty ones. *)
From Coq Require Export Permutation.
From Verif Require Export GoStr Codec Utils.

(** ** bridge/errors.go:3-21.  [ErrorType] is an int, so a data layer can build
    other values than the three constants. *)
Inductive err_type := ErrUnsupported | ErrServerError | ErrFailed | ErrOther (n : Z).

(** ** Keys.  [interface{}] values used as JWT keys, by dynamic type. *)
Inductive key := KBytes (k : string) | KRsaPriv (id : N) | KRsaPub (id : N) | KOther (id : N).

(** ** bridge/interface.go:10-24 [Client].
    Simplification: the methods of a client object are pure functions. A nil
    key is [None]. *)
Record client := Client {
  c_id : string;
  c_owner : Z;
  c_alg : string;
  c_kid : string;
  c_key : option key;
  c_match_secret : string -> bool;
  c_can_flow : flow_type -> bool;
  c_can_grant : string -> bool;
  c_can_scope : flow_type -> string -> bool;
  c_can_redirect : string -> bool;
  c_assertion_key : string -> string -> option key;
  c_no_consent : no_consent_policy;
  c_none : none_policy }.

(** bridge/interface.go:26-35 [AuthInfo] *)
Record authinfo := AuthInfo {
  ai_id : Z; ai_client : string; ai_user : Z; ai_subject : string;
  ai_scope : string; ai_authorized_at : Z; ai_active : bool }.

(** bridge/interface.go:37-47 [AuthSession] *)
Record authsession := AuthSession {
  as_code : string; as_auth_id : Z; as_auth_time : Z; as_idt_expires : Z;
  as_redirect : string; as_verifier : string; as_expires : Z;
  as_nonce : string; as_created : Z }.

(** bridge/interface.go:49-59 [OAuthToken] *)
Record oauthtoken := OAuthToken {
  ot_auth_id : Z; ot_access : string; ot_access_expires : Z; ot_refreshed : Z;
  ot_refresh : string; ot_refresh_expires : Z; ot_created : Z }.

(** authorization/request.go:57-72 [Request]; [Flow] is a pointer. *)
Record arequest := ARequest {
  rq_flow : option flow; rq_client : string; rq_scope : string; rq_redirect : string;
  rq_mode : string; rq_state : string; rq_verifier : string; rq_nonce : string;
  rq_display : string; rq_prompt : string; rq_max_age : Z; rq_locale : string;
  rq_idt_hint : string; rq_login_hint : string }.

(** authorization/request.go:74-81 [Session] *)
Record asession := ASession {
  s_redirect : string; s_code : string; s_expires : Z; s_verifier : string;
  s_nonce : string; s_auth_time : Z }.

(** authorization/request.go:113-122 [ToSession] *)
Definition to_session (r : arequest) (code : string) (expires auth_time : Z) : asession :=
  ASession (rq_redirect r) code expires (rq_verifier r) (rq_nonce r) auth_time.

(** authorization/request.go:42-55 [Policy] *)
Record policy := Policy {
  p_max_max_age : Z; p_min_max_age : Z; p_allow_empty_scope : bool;
  p_max_nonce : Z; p_max_verifier : Z; p_consent_period : Z;
  p_session_expires : Z; p_idt_expires : Z;
  p_code_mode : string; p_implicit_mode : string;
  p_ignore_bad_mode : bool; p_level_check : bool }.

(** authorization/request.go:84-99 [DefaultPolicy] *)
Definition default_policy : policy :=
  Policy 86400 60 false 255 255 86400 60 86400 MQuery MFragment true true.

(** ** log/text.go:10-48 [LogEvent], log/logger.go:7-13 [LogLevel] *)
Inductive log_event :=
| AuthenticationFailed | CodeChallengeFailed | UnauthorizedGrantType | AuthInfoConditionMismatch
| AuthSessionConditionMismatch | ScopeConditionMismatch | RefreshTokenConditionMismatch
| RedirectURIMismatch | AssertionConditionMismatch | InterfaceUnsupported | InterfaceServerError
| InterfaceError | InvalidScope | InvalidDisplay | InvalidMaxAge | InvalidResponseType
| InvalidResponseMode | InvalidNonce | InvalidPrompt | InvalidCodeVerifier | AccessTokenGranted
| InvalidHTTPMethod | MissingParam | UnsupportedGrantType | UnsupportedCodeChallengeMethod
| NoCredential | NoEnabledClient | NoEnabledAuthInfo | NoEnabledAuthSession | NoEnabledAccessToken
| NoEnabledUserId | AccessTokenCreationFailed | AccessTokenRefreshFailed | DisableSessionFailed
| AuthInfoCreationFailed | IdTokenGeneration | LoginRequired.

Inductive log_level := LDebug | LInfo | LWarn | LError | LFatal.

(** ** Results. A Go data-layer method returns (value, *Error). *)
Definition dres (A : Type) : Type := (option A * option err_type)%type.

(** A Go callback returns (value, error); the value is ignored when the error
    is not nil ([None]). *)
Definition cres (A : Type) : Type := option A.

(** ** Operations on the outside world. *)
Inductive op :=
(* bridge.DataInterface, bridge/interface.go:75-91; a nil AuthInfo argument is None *)
| OIssuer
| OFindClient (cid : string)
| OFindSession (code : string)
| OFindActiveInfo (id : Z)
| OFindInfo (uid : Z) (cid : string)
| OFindByAccess (t : string)
| OFindByRefresh (t : string)
| OCreateToken (i : option authinfo) (on_token_endpoint : bool)
| ORefresh (i : authinfo) (t : oauthtoken)
| OFindUser (username password : string)
| OCreateInfo (uid : Z) (cid scope : string)
| OCreateSession (i : option authinfo) (s : asession)
| ODisable (s : authsession)
| OFindUserBySub (sub : string)
| ORecord (cid jti : string) (iat exp : Z)
(* bridge.AuthorizationCallbacks, bridge/interface.go:61-73 *)
| OErrorScreen (n : Z)
| OLoginScreen (r : arequest)
| OConsentScreen (c : client) (r : arequest)
| OChooseLocale (l : string)
| OConfirmLogin
| OFromLogin
| OAuthTime
| OLoginUser
| OCreateCode
| OContinue
| OMatchSubject (sub : string)
(* clocks: the endpoint's TimeBuilder and the JWT library's TimeFunc *)
| ONow
| OJwtNow
(* log.Logger: level, event and attribute map (messages are not modelled) *)
| OLog (l : log_level) (e : log_event) (attrs : kvs)
(* http.ResponseWriter *)
| OSetHeader (k v : string)
| OStatus (n : Z)
| OBody (s : string)
(* http.Redirect(w, r, url, 302).  Simplification: one operation; net/http's
   rewriting of relative URLs, its escaping of non-ASCII bytes and its HTML
   body are not modelled *)
| ORedirect (url : string)
(* the random iteration order of a Go map: the answer is a permutation *)
| OMapOrder (m : kvs).

Definition ans (o : op) : Type :=
  match o with
  | OIssuer => string
  | OFindClient _ => dres client
  | OFindSession _ => dres authsession
  | OFindActiveInfo _ | OFindInfo _ _ | OCreateInfo _ _ _ => dres authinfo
  | OFindByAccess _ | OFindByRefresh _ | OCreateToken _ _ | ORefresh _ _ => dres oauthtoken
  | OFindUser _ _ | OFindUserBySub _ => (Z * option err_type)%type
  | OCreateSession _ _ | ODisable _ | ORecord _ _ _ _ => option err_type
  | OErrorScreen _ => unit
  | OLoginScreen _ | OConsentScreen _ _ => cres unit
  | OChooseLocale _ => cres string
  | OConfirmLogin | OFromLogin | OMatchSubject _ => cres bool
  | OAuthTime | OLoginUser => cres Z
  | OCreateCode => cres string
  | OContinue => cres (option arequest)
  | ONow | OJwtNow => Z
  | OLog _ _ _ | OSetHeader _ _ | OStatus _ | OBody _ | ORedirect _ => unit
  | OMapOrder m => { l : kvs | Permutation l m }
  end.

(** ** Programs *)
Inductive prog (A : Type) : Type :=
| Ret (a : A)
| Panic                                   (* nil dereference *)
| Vis (o : op) (k : ans o -> prog A).
Arguments Ret {A} a. Arguments Panic {A}. Arguments Vis {A} o k.

Fixpoint bind {A B} (p : prog A) (f : A -> prog B) : prog B :=
  match p with
  | Ret a => f a
  | Panic => Panic
  | Vis o k => Vis o (fun x => bind (k x) f)
  end.

Definition call (o : op) : prog (ans o) := Vis o (fun x => Ret x).

Notation "x <- p ;; q" := (bind p (fun x => q)) (at level 61, p at next level, right associativity).
Notation "' x <- p ;; q" := (bind p (fun x => q)) (at level 61, x pattern, p at next level, right associativity).
Notation "p ;;; q" := (bind p (fun _ => q)) (at level 61, right associativity).

(** The error-handling pattern repeated after every data-layer call that
    returns (interface, *Error): branch on ErrFailed, ErrUnsupported, any other
    error, (nil, nil), and success. *)
Definition dcheck {A B} (r : dres A) (failed unsup srv nilr : prog B) (k : A -> prog B) : prog B :=
  match r with
  | (_, Some ErrFailed) => failed
  | (_, Some ErrUnsupported) => unsup
  | (_, Some _) => srv
  | (None, None) => nilr
  | (Some a, None) => k a
  end.

(** Same for methods returning (int64, *Error). *)
Definition zcheck {B} (r : Z * option err_type) (failed unsup srv : prog B) (k : Z -> prog B) : prog B :=
  match r with
  | (_, Some ErrFailed) => failed
  | (_, Some ErrUnsupported) => unsup
  | (_, Some _) => srv
  | (z, None) => k z
  end.

(** Same for methods returning only *Error. *)
Definition echeck {B} (r : option err_type) (failed unsup srv : prog B) (k : prog B) : prog B :=
  match r with
  | Some ErrFailed => failed
  | Some ErrUnsupported => unsup
  | Some _ => srv
  | None => k
  end.

Definition logm (l : log_level) (e : log_event) (attrs : kvs) : prog unit := call (OLog l e attrs).

(** ** Executions.  An event is an operation with its answer. *)
Inductive event := Ev (o : op) (a : ans o).

Definition ev_op (e : event) : op := match e with Ev o _ => o end.

Inductive outcome (A : Type) := Done (a : A) | Panicked.
Arguments Done {A} a. Arguments Panicked {A}.

(** [exec p tr r]: in some outside world that answers as recorded in [tr], the
    program performs exactly the operations of [tr] and ends with [r]. *)
Inductive exec {A} : prog A -> list event -> outcome A -> Prop :=
| exec_ret a : exec (Ret a) [] (Done a)
| exec_panic : exec Panic [] Panicked
| exec_vis o k x tr r : exec (k x) tr r -> exec (Vis o k) (Ev o x :: tr) r.

(** [steps p tr p']: the program has performed [tr] so far and [p'] is left to
    run: every crash point of every execution. *)
Inductive steps {A} : prog A -> list event -> prog A -> Prop :=
| steps_nil p : steps p [] p
| steps_vis o k x tr p' : steps (k x) tr p' -> steps (Vis o k) (Ev o x :: tr) p'.

(** Deterministic execution against a world with state [S]. *)
Definition world (S : Type) := S -> forall o, S * ans o.

Fixpoint run {S A} (w : world S) (s : S) (p : prog A) : S * list event * outcome A :=
  match p with
  | Ret a => (s, [], Done a)
  | Panic => (s, [], Panicked)
  | Vis o k =>
      let '(s', x) := w s o in
      let '(s'', tr, r) := run w s' (k x) in
      (s'', Ev o x :: tr, r)
  end.

(** ** net/http requests.
    Simplification: the URL query, the urlencoded body and the values in a multipart
    body are given parsed, in order of appearance (Http.v and Multipart.v parse them). *)
Record request := MultiRequest {
  r_method : string;
  r_path : string;                    (* r.URL.Path *)
  r_headers : kvs;                    (* canonical key, value; first wins *)
  r_query : kvs;
  r_body : kvs;                       (* of an urlencoded body *)
  r_parts : kvs }.                    (* the values in a multipart body *)

(** A request without a multipart body. *)
Definition Request (m p : string) (h q b : kvs) : request := MultiRequest m p h q b [].

(** net/http parses the urlencoded body of POST, PUT and PATCH requests only. *)
Definition has_body (r : request) : bool :=
  (r_method r =s? "POST") || (r_method r =s? "PUT") || (r_method r =s? "PATCH").

Definition post_form (r : request) : kvs := if has_body r then r_body r else [].

Definition or_empty (o : option string) : string := match o with Some s => s | None => "" end.

(** [r.PostFormValue(k)], [r.FormValue(k)]: the values of an urlencoded body precede
    those of the query; [ParseMultipartForm] adds the values of a multipart body at
    the end. *)
Definition post_form_value (r : request) (k : string) : string :=
  or_empty (kv_get k (post_form r ++ r_parts r)%list).
Definition form_value (r : request) (k : string) : string :=
  or_empty (kv_get k (post_form r ++ r_query r ++ r_parts r)%list).

(** [textproto.CanonicalMIMEHeaderKey], exact for header names made of letters,
    digits and '-' (the constants used by goidc); the first letter and every
    letter after '-' upper case, the rest lower case. *)
Definition upper_byte (a : ascii) : ascii :=
  let n := N_of_ascii a in
  if (N.leb 97 n && N.leb n 122)%bool then ascii_of_N (n - 32) else a.
Fixpoint canon_go (up : bool) (s : string) : string :=
  match s with
  | EmptyString => ""
  | String a s' => String (if up then upper_byte a else lower_byte a)
                     (canon_go (Ascii.eqb a "-") s')
  end.
Definition canon (s : string) : string := canon_go true s.

(** [r.Header.Get], [r.Header.Set] *)
Definition header_get (r : request) (k : string) : string := or_empty (kv_get (canon k) (r_headers r)).
Definition header_set (r : request) (k v : string) : request :=
  MultiRequest (r_method r) (r_path r)
          ((canon k, v) :: filter (fun p => negb (fst p =s? canon k)) (r_headers r))
          (r_query r) (r_body r) (r_parts r).

(** [r.BasicAuth()] of net/http: token_endpoint.go:366, basic_auth/util.go:19.
    "Basic " case-insensitively, base64, split at the first ':'. *)
Definition basic_auth (r : request) : option (string * string) :=
  let auth := header_get r "Authorization" in
  if has_prefix "basic " (to_lower (substring 0 6 auth)) then
    match b64_decode B64Std (substring 6 (String.length auth - 6) auth) with
    | None => None
    | Some c => let '(u, p, found) := cut ":" c in if found then Some (u, p) else None
    end
  else None.

(** ** The JWT library (github.com/golang-jwt/jwt), an external dependency.
    Any library will do for most theorems; Jwt.v models the one in use.  The control
    flow of [jwt.Parse] is modelled in Assertion.v on top of these functions. *)
Inductive jval := JStr (s : string) | JFloat (as_int64 : Z) | JNumber (as_int64 : option Z) | JOther.
Definition jmap := list (string * jval).
Fixpoint jget (k : string) (m : jmap) : option jval :=
  match m with
  | [] => None
  | (k', v) :: r => if k =s? k' then Some v else jget k r
  end.
Definition jstr (k : string) (m : jmap) : option string :=
  match jget k m with Some (JStr s) => Some s | _ => None end.

Record jtoken := JToken { jt_header : jmap; jt_claims : jmap }.

Inductive jparsed :=
| PMalformed                       (* not three segments, bad base64 or bad JSON *)
| PNoAlg                           (* alg missing or unknown *)
| PToken (t : jtoken).

Record cflags := CFlags { cf_expired : bool; cf_iat : bool; cf_nbf : bool }.

(** Claims of a token to be signed: integers and strings, as rawGen builds them. *)
Inductive cval := CStr (s : string) | CInt (z : Z).
Definition claimset := list (string * cval).

Record jwtlib := JwtLib {
  jl_parse : string -> jparsed;                   (* ParseUnverified *)
  jl_claims : Z -> jmap -> cflags;                (* MapClaims.Valid at a time *)
  jl_verify : string -> key -> bool;              (* Method.Verify of a raw token *)
  jl_has_alg : string -> bool;                    (* GetSigningMethod(alg) != nil *)
  jl_sign : string -> option string -> claimset -> option key -> option string }.
    (* SignedString: alg, kid header, claims, key *)
