(** * basic_auth, log, the JWK endpoint and the request codec. *)
From Verif Require Import Core Json OAuthError.

(** ** basic_auth/util.go *)

(** basic_auth/util.go:9-12 [Token] *)
Definition basic_token (uid pass : string) : string :=
  b64_encode B64Std (qescape uid ++ ":" ++ qescape pass).
(** basic_auth/util.go:14-16 [Header] *)
Definition basic_header (uid pass : string) : string := "Basic " ++ basic_token uid pass.
(** basic_auth/util.go:18-30 [FindClientCredential] *)
Definition basic_find_credential (r : request) : option (string * string) :=
  match basic_auth r with
  | Some p => Some p
  | None =>
      let cid := form_value r "client_id" in
      let sec := form_value r "client_secret" in
      if (negb (cid =s? "") && negb (sec =s? ""))%bool then Some (cid, sec) else None
  end.

(** ** log/color.go *)
Definition esc : ascii := "027".
(** log/color.go:20-22 [paint], 24-26 [lightPaint] *)
Definition paint (txt : string) (color : Z) : string :=
  String esc ("[" ++ itoa color ++ "m" ++ txt ++ String esc "[m").
Definition light_paint (txt : string) (color : Z) : string :=
  String esc ("[1;" ++ itoa color ++ "m" ++ txt ++ String esc "[m").

(** ** log/logger.go *)

(** log/logger.go:7-13: the constants' values *)
Definition level_num (l : log_level) : Z :=
  match l with LDebug => 0 | LInfo => 1 | LWarn => 2 | LError => 3 | LFatal => 4 end.
(** log/logger.go:37-52 [String] *)
Definition level_label (l : log_level) : string :=
  match l with
  | LDebug => "DEBUG" | LInfo => "INFO" | LWarn => "WARN" | LError => "DEBUG" | LFatal => "DEBUG"
  end.
(** log/logger.go:54-64, log/color.go:7-16: the colour map *)
Definition level_color (l : log_level) : Z :=
  match l with LDebug => 37 | LInfo => 32 | LWarn => 35 | LError => 33 | LFatal => 31 end.
(** log/logger.go:73-77 [insertLevelLabel] *)
Definition insert_label (l : log_level) (msg : string) : string :=
  paint ("[" ++ level_label l ++ "]") (level_color l) ++ " " ++ msg.
(** log/logger.go:79-112 [Debug] .. [Fatal]: what is printed, if anything, when
    the configured level is [conf] (an int; SetLevelForDefaultLogger, 66-71,
    accepts everything up to Fatal, negative values included). *)
Definition default_log (conf : Z) (l : log_level) (msg : string) : option string :=
  if (conf <=? level_num l)%Z then Some (insert_label l msg) else None.
(** log/logger.go:66-71 [SetLevelForDefaultLogger]; [None]: panic. *)
Definition set_level (z : Z) : option Z := if (4 <? z)%Z then None else Some z.

(** ** log/text.go *)

(** log/text.go:50-129 [String] *)
Definition event_name (e : log_event) : string :=
  match e with
  | AuthenticationFailed => "authentication_failed"
  | CodeChallengeFailed => "code_challenge_failed"
  | UnauthorizedGrantType => "unauthorized_grant_type"
  | ScopeConditionMismatch => "scope_condition_mismatch"
  | RefreshTokenConditionMismatch => "refresh_token_condition_mismatch"
  | AssertionConditionMismatch => "assertion_condition_mismatch"
  | AuthInfoConditionMismatch => "auth_info_condition_mismatch"
  | AuthSessionConditionMismatch => "auth_session_condition_mismatch"
  | RedirectURIMismatch => "redirect_uri_mismatch"
  | InterfaceUnsupported => "interface_unsupported"
  | InterfaceServerError => "interface_server_error"
  | InterfaceError => "interface_error"
  | InvalidScope => "invalid_scope"
  | InvalidDisplay => "invalid_display"
  | InvalidMaxAge => "invalid_max_age"
  | InvalidNonce => "invalid_nonce"
  | InvalidPrompt => "invalid_prompt"
  | InvalidCodeVerifier => "invalid_code_verifier"
  | InvalidResponseType => "invalid_response_type"
  | InvalidResponseMode => "invalid_response_mode"
  | AccessTokenGranted => "access_token_granted"
  | AccessTokenCreationFailed => "access_token_creation_failed"
  | AccessTokenRefreshFailed => "access_token_refresh_failed"
  | AuthInfoCreationFailed => "auth_info_creation_failed"
  | DisableSessionFailed => "disable_session_failed"
  | InvalidHTTPMethod => "invalid_http_method"
  | MissingParam => "missing_param"
  | UnsupportedGrantType => "unsupported_grant_type"
  | UnsupportedCodeChallengeMethod => "unsupported_code_challenge_method"
  | NoCredential => "no_credential"
  | NoEnabledClient => "no_enabled_client"
  | NoEnabledUserId => "no_enabled_user_id"
  | NoEnabledAuthInfo => "no_enabled_auth_info"
  | NoEnabledAuthSession => "no_enabled_auth_session"
  | NoEnabledAccessToken => "no_enabled_access_token"
  | IdTokenGeneration => "id_token_generation"
  | LoginRequired => "login_required"
  end.

(** log/text.go:146-151 [EndpointLog]; json.Marshal prints map keys sorted. *)
Definition endpoint_log (endpoint realm : string) (ev : log_event) (params : kvs) (msg : string) : string :=
  "[goidc:" ++ endpoint ++ ":" ++ light_paint realm 34 ++ ":" ++ paint (event_name ev) 36 ++ "] "
  ++ msg ++ " "
  ++ light_paint (jprint (JSObj (map (fun p => (fst p, JSString (snd p))) (kv_sort params)))) 31.

(** ** jwk_endpoint.go, crypto/key.go:15-30.
    A public key is represented by a string; [load] is
    crypto.LoadPublicKeyFromText/File and [render] is the rendering of a key set
    by the jwk library and encoding/json ([None]: error). *)
Definition jwk_endpoint := kvs.                                   (* jwk_endpoint.go:10-12 *)
Definition new_jwk : jwk_endpoint := [].                          (* jwk_endpoint.go:14-18 *)
(** jwk_endpoint.go:20-34 [AddFromFile], [AddFromText]; [None]: panic. *)
Definition jwk_add (load : string -> option string) (e : jwk_endpoint) (kid pem : string)
  : option jwk_endpoint :=
  match load pem with
  | None => None
  | Some k => Some (kv_set kid k e)
  end.
(** jwk_endpoint.go:36-43 [Handler]: the key set is rendered when Handler is
    called, in the iteration order of the map; an error is ignored, leaving a
    nil (empty) body. *)
Definition jwk_handler (render : kvs -> option string) (e : jwk_endpoint) : prog (prog unit) :=
  ordered <- call (OMapOrder e) ;;
  let json := or_empty (render (proj1_sig ordered)) in
  Ret ((call (OSetHeader "Content-Type" "application/json") ;;;
        call (OStatus 200) ;;;
        call (OBody json)) : prog unit).

(** ** authorization/request.go *)

(** flow/flow.go:34-36, 57-61: a flow as JSON (or null) *)
Definition flow_json (f : option flow) : json :=
  match f with
  | None => JSNull
  | Some f => JSObj [("type", JSString (flow_name (f_type f)));
                     ("require_access_token", JSBool (f_access f));
                     ("require_id_token", JSBool (f_id f))]
  end.

(** authorization/request.go:57-72: the struct as JSON, fields in order *)
Definition request_json (r : arequest) : json :=
  JSObj [("flow", flow_json (rq_flow r)); ("client_id", JSString (rq_client r));
         ("scope", JSString (rq_scope r)); ("redirect_uri", JSString (rq_redirect r));
         ("response_mode", JSString (rq_mode r)); ("state", JSString (rq_state r));
         ("code_verifier", JSString (rq_verifier r)); ("nonce", JSString (rq_nonce r));
         ("display", JSString (rq_display r)); ("prompt", JSString (rq_prompt r));
         ("max_age", JSInt (rq_max_age r)); ("ui_locale", JSString (rq_locale r));
         ("id_token_hint", JSString (rq_idt_hint r)); ("login_hint", JSString (rq_login_hint r))].

(** authorization/request.go:101-104 [Encode] *)
Definition request_encode (r : arequest) : string := b64_encode B64Url (jprint (request_json r)).
