(** * grant/*.go: the five grant handlers. *)
From Verif Require Import Core Json OAuthError IdToken Assertion.

(** grant/interface.go:23-30 [Response]; TokenType is always "Bearer". *)
Record response := Response {
  rs_access : string; rs_expires : Z; rs_refresh : string; rs_scope : string; rs_id : string }.

(** grant/interface.go:33-39 [NewResponse] *)
Definition new_response (token : string) (expires : Z) : response := Response token expires "" "" "".

(** grant/interface.go:23-30, 41-48 [JSON].  The tag of Scope is malformed
    (omitempty outside the quotes), so scope is always printed. *)
Definition response_json (r : response) : string :=
  jprint (JSObj ([("token_type", JSString "Bearer"); ("access_token", JSString (rs_access r));
                  ("expires_in", JSInt (rs_expires r))]
                 ++ omit_empty "refresh_token" (rs_refresh r)
                 ++ [("scope", JSString (rs_scope r))]
                 ++ omit_empty "id_token" (rs_id r))%list).

(** grant/interface.go:14-16 [GrantHandlerFunc].  The *http.Request, the client
    and the request time are arguments; the data interface and the logger are
    reached through operations. *)
Definition handler : Type := request -> client -> Z -> prog (response + oauth_error).

Definition refuse (e : oauth_error) : prog (response + oauth_error) := Ret (inr e).

(** The end common to all handlers, e.g. grant/authorization_code.go:307-316:
    Scope and RefreshToken are assigned when non-empty. *)
Definition base_response (t : oauthtoken) (scope : string) : response :=
  Response (ot_access t) (ot_access_expires t) (ot_refresh t) scope "".

Definition TypeAuthorizationCode := "authorization_code".   (* grant/authorization_code.go:18 *)
Definition TypeRefreshToken := "refresh_token".             (* grant/refresh_token.go:13 *)
Definition TypePassword := "password".                      (* grant/password.go:13 *)
Definition TypeClientCredentials := "client_credentials".   (* grant/client_credential.go:13 *)
(* grant/jwt.go:21 *)
Definition TypeJWT := "urn:ietf:params:oauth:client-assertion-type:jwt-bearer".

(** grant/authorization_code.go:171-233: the PKCE check, run when the session
    carries a code verifier.  [None]: passed. *)
Definition pkce_check (r : request) (c : client) (cv : string) : prog (option oauth_error) :=
  if cv =s? "" then Ret None
  else
    let cm := form_value r "code_challenge_method" in
    if cm =s? "" then
      logm LDebug MissingParam [("param", "code_challenge_method"); ("client_id", c_id c)] ;;;
      Ret (Some (new_oerr EInvalidRequest "missing 'code_challenge_method' parameter"))
    else
      let cc := form_value r "code_challenge" in
      if cc =s? "" then
        logm LDebug MissingParam [("param", "code_challenge"); ("client_id", c_id c)] ;;;
        Ret (Some (new_oerr EInvalidRequest "missing 'code_challenge' parameter"))
      else
        match find_verifier cm with
        | None =>
            logm LDebug UnsupportedCodeChallengeMethod
              [("code_challenge_method", cm); ("client_id", c_id c)] ;;;
            Ret (Some (new_oerr EInvalidRequest
                         ("unsupported 'code_challenge_method': '" ++ cm ++ "'")))
        | Some m =>
            if pkce_verify m cc cv then Ret None
            else
              logm LInfo CodeChallengeFailed
                [("code_challenge_method", cm); ("code_challenge", cc); ("client_id", c_id c)] ;;;
              Ret (Some (new_oerr EInvalidGrant ("invalid 'code_challenge': '" ++ cc ++ "'")))
        end.

(** grant/authorization_code.go:318-350: the id_token, attached when the
    authorization's scope contains openid. *)
Definition code_id_token (J : jwtlib) (c : client) (info : authinfo) (sess : authsession)
  (now : Z) (res : response) : prog (response + oauth_error) :=
  if include_openid (ai_scope info) then
    logm LDebug IdTokenGeneration [("client_id", c_id c)] ;;;
    iss <- call OIssuer ;;
    match gen J (c_alg c) (c_key c) (c_kid c) iss (ai_client info) (ai_subject info)
              (as_nonce sess) (as_idt_expires sess) (as_auth_time sess) now with
    | None =>
        logm LWarn IdTokenGeneration [("client_id", c_id c)] ;;;
        refuse (simple_oerr EServerError)
    | Some idt =>
        Ret (inl (Response (rs_access res) (rs_expires res) (rs_refresh res) (rs_scope res) idt))
    end
  else Ret (inl res).

(** grant/authorization_code.go:20-354 [AuthorizationCode] *)
Definition authorization_code (J : jwtlib) : handler := fun r c now =>
  let id := c_id c in
  let uri := form_value r "redirect_uri" in                                   (* 26-36 *)
  if uri =s? "" then
    logm LDebug MissingParam [("param", "redirect_uri"); ("client_id", id)] ;;;
    refuse (new_oerr EInvalidRequest "missing 'redirect_uri' parameter")
  else
  let code := form_value r "code" in                                          (* 37-47 *)
  if code =s? "" then
    logm LDebug MissingParam [("param", "code"); ("client_id", id)] ;;;
    refuse (new_oerr EInvalidRequest "missing 'code' parameter")
  else
  rs <- call (OFindSession code) ;;                                           (* 49-96 *)
  dcheck rs
    (logm LInfo NoEnabledAuthSession
       [("method", "FindAuthSessionByCode"); ("code", code); ("client_id", id)] ;;;
     refuse (simple_oerr EInvalidGrant))
    (logm LError InterfaceUnsupported [("method", "FindAuthSessionByCode"); ("client_id", id)] ;;;
     refuse (simple_oerr EServerError))
    (logm LWarn InterfaceServerError
       [("method", "FindAuthSessionByCode"); ("code", code); ("client_id", id)] ;;;
     refuse (simple_oerr EServerError))
    (logm LError InterfaceError [("method", "FindAuthSessionByCode"); ("client_id", id)] ;;;
     refuse (simple_oerr EServerError))
  (fun sess =>
  ri <- call (OFindActiveInfo (as_auth_id sess)) ;;                           (* 97-150 *)
  dcheck ri
    (logm LInfo NoEnabledAuthInfo
       [("method", "FindActiveAuthInfoById"); ("code", code); ("client_id", id)] ;;;
     refuse (simple_oerr EInvalidGrant))
    (logm LError InterfaceUnsupported [("method", "FindActiveAuthInfoById"); ("client_id", id)] ;;;
     refuse (simple_oerr EServerError))
    (logm LWarn InterfaceServerError
       [("method", "FindActiveAuthInfoById"); ("code", code); ("client_id", id)] ;;;
     refuse (simple_oerr EServerError))
    (logm LError InterfaceError [("method", "FindActiveAuthInfoById"); ("client_id", id)] ;;;
     refuse (simple_oerr EServerError))
  (fun info =>
  if negb (ai_client info =s? id) then                                        (* 151-159 *)
    logm LInfo AuthInfoConditionMismatch [("client_id", id)] ;;;
    refuse (simple_oerr EInvalidGrant)
  else if negb (as_redirect sess =s? uri) then                                (* 160-169 *)
    logm LInfo AuthInfoConditionMismatch [("client_id", id)] ;;;
    refuse (new_oerr EInvalidGrant
              ("indicated 'redirect_uri' (" ++ uri ++ ") is not allowed for this client"))
  else
  pk <- pkce_check r c (as_verifier sess) ;;                                  (* 171-233 *)
  match pk with
  | Some e => refuse e
  | None =>
  rt <- call (OCreateToken (Some info) true) ;;                               (* 235-274 *)
  dcheck rt
    (logm LDebug AccessTokenCreationFailed [("method", "CreateOAuthToken"); ("client_id", id)] ;;;
     refuse (simple_oerr EInvalidGrant))
    (logm LError InterfaceUnsupported [("method", "CreateOAuthToken"); ("client_id", id)] ;;;
     refuse (simple_oerr EServerError))
    (logm LWarn InterfaceServerError [("method", "CreateOAuthToken"); ("client_id", id)] ;;;
     refuse (simple_oerr EServerError))
    (logm LError InterfaceError [("method", "CreateOAuthToken"); ("client_id", id)] ;;;
     refuse (simple_oerr EServerError))
  (fun token =>
  rd <- call (ODisable sess) ;;                                               (* 276-305 *)
  echeck rd
    (logm LError DisableSessionFailed [("method", "DisableSession"); ("client_id", id)] ;;;
     refuse (simple_oerr EInvalidGrant))
    (logm LError InterfaceUnsupported [("method", "DisableCode"); ("client_id", id)] ;;;
     refuse (simple_oerr EServerError))
    (logm LWarn InterfaceServerError [("method", "DisableCode"); ("client_id", id)] ;;;
     refuse (simple_oerr EServerError))
  (code_id_token J c info sess now (base_response token (ai_scope info))))    (* 307-351 *)
  end)).

(** grant/refresh_token.go:15-227 [RefreshToken] *)
Definition refresh_token : handler := fun r c now =>
  let id := c_id c in
  let rt := form_value r "refresh_token" in                                   (* 21-34 *)
  if rt =s? "" then
    logm LDebug MissingParam [("param", "refresh_token"); ("client_id", id)] ;;;
    refuse (new_oerr EInvalidRequest "missing 'refresh_token' parameter")
  else
  ro <- call (OFindByRefresh rt) ;;                                           (* 36-85 *)
  dcheck ro
    (logm LDebug NoEnabledAccessToken
       [("method", "FindAccessTokenByRefreshToken"); ("refresh_token", rt); ("client_id", id)] ;;;
     refuse (simple_oerr EInvalidGrant))
    (logm LError InterfaceUnsupported [("method", "FindAccessTokenByRefreshToken")] ;;;
     refuse (simple_oerr EServerError))
    (logm LWarn InterfaceServerError
       [("method", "FindAccessTokenByRefreshToken"); ("refresh_token", rt); ("client_id", id)] ;;;
     refuse (simple_oerr EServerError))
    (logm LError InterfaceError [("method", "FindAccessTokenByRefreshToken")] ;;;
     refuse (simple_oerr EServerError))
  (fun old =>
  if (add64 (ot_refresh_expires old) (ot_created old) <? now)%Z then          (* 87-96 *)
    logm LInfo RefreshTokenConditionMismatch [("client_id", id)] ;;;
    refuse (new_oerr EInvalidGrant "expired 'refresh_token'")
  else
  ri <- call (OFindActiveInfo (ot_auth_id old)) ;;                            (* 98-145 *)
  dcheck ri
    (logm LDebug NoEnabledAuthInfo [("method", "FindActiveAuthInfoById"); ("client_id", id)] ;;;
     refuse (simple_oerr EInvalidGrant))
    (logm LError InterfaceUnsupported [("method", "FindActiveAuthInfoById")] ;;;
     refuse (simple_oerr EServerError))
    (logm LWarn InterfaceServerError [("method", "FindActiveAuthInfoById"); ("client_id", id)] ;;;
     refuse (simple_oerr EServerError))
    (logm LError InterfaceError [("method", "FindActiveAuthInfoById")] ;;;
     refuse (simple_oerr EServerError))
  (fun info =>
  if negb (ai_client info =s? id) then                                        (* 146-154 *)
    logm LInfo AuthInfoConditionMismatch [("client_id", id)] ;;;
    refuse (simple_oerr EInvalidGrant)
  else
  let scp := ai_scope info in
  if negb (include_offline scp) then                                          (* 155-164 *)
    logm LInfo ScopeConditionMismatch [("client_id", id)] ;;;
    refuse (simple_oerr EInvalidGrant)
  else
  rn <- call (ORefresh info old) ;;                                           (* 166-213 *)
  dcheck rn
    (logm LDebug AccessTokenRefreshFailed [("method", "RefreshAccessToken"); ("client_id", id)] ;;;
     refuse (simple_oerr EInvalidGrant))
    (logm LError InterfaceUnsupported [("method", "RefreshAccessToken")] ;;;
     refuse (simple_oerr EServerError))
    (logm LWarn InterfaceServerError [("method", "RefreshAccessToken"); ("client_id", id)] ;;;
     refuse (simple_oerr EServerError))
    (logm LError InterfaceError [("method", "RefreshAccessToken")] ;;;
     refuse (simple_oerr EServerError))
  (fun token => Ret (inl (base_response token scp))))).                       (* 215-224 *)

(** The tail shared by the three direct grants: CreateOrUpdateAuthInfo, then
    CreateOAuthToken, then the response.  grant/password.go:97-199,
    grant/client_credential.go:43-137, grant/jwt.go:126-222 (identical). *)
Definition direct_tail (c : client) (uid : Z) (scope : string) : prog (response + oauth_error) :=
  let id := c_id c in
  ri <- call (OCreateInfo uid id scope) ;;
  dcheck ri
    (logm LDebug AuthInfoCreationFailed [("method", "CreateOrUpdateAuthInfo"); ("client_id", id)] ;;;
     refuse (simple_oerr EInvalidGrant))
    (logm LError InterfaceUnsupported [("method", "CreateOrUpdateAuthInfo")] ;;;
     refuse (simple_oerr EServerError))
    (logm LWarn InterfaceServerError [("method", "CreateOrUpdateAuthInfo"); ("client_id", id)] ;;;
     refuse (simple_oerr EServerError))
    (logm LError InterfaceError [("method", "CreateOrUpdateAuthInfo")] ;;;
     refuse (simple_oerr EServerError))
  (fun info =>
  rt <- call (OCreateToken (Some info) true) ;;
  dcheck rt
    (logm LDebug AccessTokenCreationFailed [("method", "CreateOAuthToken"); ("client_id", id)] ;;;
     refuse (simple_oerr EInvalidGrant))
    (logm LError InterfaceUnsupported [("method", "CreateOAuthToken")] ;;;
     refuse (simple_oerr EServerError))
    (logm LWarn InterfaceServerError [("method", "CreateOAuthToken"); ("client_id", id)] ;;;
     refuse (simple_oerr EServerError))
    (logm LError InterfaceError [("method", "CreateOAuthToken")] ;;;
     refuse (simple_oerr EServerError))
  (fun token => Ret (inl (base_response token (ai_scope info))))).

(** grant/password.go:45-53, grant/client_credential.go:32-41, grant/jwt.go:115-124 *)
Definition scope_refused (c : client) (scope : string) : bool :=
  (negb (scope =s? "") && negb (c_can_scope c FDirectGrant scope))%bool.

(** grant/password.go:15-202 [Password] *)
Definition password_grant : handler := fun r c now =>
  let id := c_id c in
  let username := form_value r "username" in                                  (* 21-31 *)
  if username =s? "" then
    logm LDebug MissingParam [("param", "username"); ("client_id", id)] ;;;
    refuse (new_oerr EInvalidRequest "missing 'username' parameter")
  else
  let password := form_value r "password" in                                  (* 33-43 *)
  if password =s? "" then
    logm LDebug MissingParam [("param", "password"); ("client_id", id)] ;;;
    refuse (new_oerr EInvalidRequest "missing 'password' parameter")
  else
  let scope := form_value r "scope" in                                        (* 45-53 *)
  if scope_refused c scope then
    logm LInfo InvalidScope [("scope", scope); ("client_id", id)] ;;;
    refuse (simple_oerr EInvalidScope)
  else
  ru <- call (OFindUser username password) ;;                                 (* 55-95 *)
  zcheck ru
    (logm LDebug NoEnabledUserId
       [("method", "FindUserId"); ("client_id", id); ("username", username); ("password", password)] ;;;
     refuse (simple_oerr EInvalidGrant))
    (logm LError InterfaceUnsupported [("method", "FindUserId")] ;;;
     refuse (simple_oerr EServerError))
    (logm LWarn InterfaceServerError
       [("method", "FindUserId"); ("client_id", id); ("username", username); ("password", password)] ;;;
     refuse (simple_oerr EServerError))
  (fun uid => direct_tail c uid scope).

(** grant/client_credential.go:15-140 [ClientCredentials] *)
Definition client_credentials : handler := fun r c now =>
  let id := c_id c in
  let uid := c_owner c in                                                     (* 21-30 *)
  if (uid <? 0)%Z then
    logm LWarn NoEnabledUserId [("method", "OwnerUserId"); ("client_id", id)] ;;;
    refuse (simple_oerr EInvalidGrant)
  else
  let scope := form_value r "scope" in                                        (* 32-41 *)
  if scope_refused c scope then
    logm LInfo InvalidScope [("scope", scope); ("client_id", id)] ;;;
    refuse (simple_oerr EInvalidScope)
  else direct_tail c uid scope.

(** grant/jwt.go:41-60: the key function of the JWT grant. *)
Definition grant_keyf (c : client) (t : jtoken) : prog (option client * keyres) :=
  let alg := or_empty (jstr "alg" (jt_header t)) in
  let kid := or_empty (jstr "kid" (jt_header t)) in
  Ret (Some c, match c_assertion_key c alg kid with
               | None => inl None
               | Some k => inr k
               end).

(** grant/jwt.go:23-225 [JWT] *)
Definition jwt_grant (J : jwtlib) : handler := fun r c now =>
  let id := c_id c in
  let a := form_value r "assertion" in                                        (* 29-39 *)
  if a =s? "" then
    logm LDebug MissingParam [("param", "assertion"); ("client_id", id)] ;;;
    refuse (new_oerr EInvalidRequest "missing 'assertion' parameter")
  else
  '(_, res) <- jwt_parse J a (Some c) (grant_keyf c) ;;                       (* 41-60 *)
  oerr <- handle_assertion_error a res (Some c) ;;                            (* 62-65 *)
  match oerr, res with
  | Some e, _ => refuse e
  | None, inl _ => Panic                                                      (* not reachable *)
  | None, inr t =>
  match jstr "sub" (jt_claims t) with                                         (* 66-77 *)
  | None =>
      logm LDebug MissingParam [("param", "sub"); ("client_id", id)] ;;;
      refuse (new_oerr EInvalidRequest "'sub' parameter not found")
  | Some sub =>
  ru <- call (OFindUserBySub sub) ;;                                          (* 79-113 *)
  zcheck ru
    (logm LDebug NoEnabledUserId
       [("method", "FindUserIdBySubject"); ("client_id", id); ("subject", sub)] ;;;
     refuse (new_oerr EInvalidGrant ("invalid 'sub' parameter '" ++ sub ++ "' in assertion")))
    (logm LError InterfaceUnsupported [("method", "FindUserIdBySubject")] ;;;
     refuse (simple_oerr EServerError))
    (logm LWarn InterfaceServerError [("method", "FindUserIdBySubject"); ("client_id", id)] ;;;
     refuse (simple_oerr EServerError))
  (fun uid =>
  let scope := form_value r "scope" in                                        (* 115-124 *)
  if scope_refused c scope then
    logm LInfo InvalidScope [("scope", scope); ("client_id", id)] ;;;
    refuse (simple_oerr EInvalidScope)
  else direct_tail c uid scope)                                               (* 126-222 *)
  end end.
