(** * resource_protector.go *)
From Verif Require Import Core OAuthError TokenEndpoint.

(** resource_protector.go:16-22 *)
Record protector := Protector {
  rp_realm : string;
  rp_uri : option (oerr_type -> string);
  rp_accept : accept }.

(** resource_protector.go:53-79 [findTokenFromRequest] *)
Definition find_token (rp : protector) (r : request) : string :=
  let header := header_get r "Authorization" in
  if header =s? "" then ""
  else match split_on space header with
       | scheme :: token :: _ =>
           if negb (to_lower scheme =s? "bearer") then ""
           else if negb (token =s? "") then token
           else match rp_accept rp with
                | FromHeader => ""
                | FromHeaderAndPostBody => post_form_value r "access_token"
                | FromAll => form_value r "access_token"
                | AcceptOther => ""
                end
       | _ => ""
       end.

(** resource_protector.go:242-248 [unauthorize] *)
Definition unauthorize (rp : protector) (e : oauth_error) : prog unit :=
  call (OSetHeader "WWW-Authenticate" (oerr_header (with_uri (rp_uri rp) e) (rp_realm rp))) ;;;
  call (OStatus (oerr_status (oe_type e))).

(** resource_protector.go:104-240 [Validate].  The request is returned with the
    headers it has afterwards (Go mutates it in place). *)
Definition validate (rp : protector) (r : request) : prog (bool * request) :=
  let rt := find_token rp r in
  let path := r_path r in
  if rt =s? "" then                                                            (* 109-118 *)
    logm LDebug NoCredential [] ;;;
    unauthorize rp (simple_oerr EInvalidRequest) ;;; Ret (false, r)
  else
  ra <- call (OFindByAccess rt) ;;                                             (* 120-168 *)
  dcheck ra
    (logm LInfo AuthenticationFailed
       [("access_token", rt); ("remote_addr", header_get r "REMOTE_ADDR");
        ("x-forwarded-for", header_get r "X-FORWARDED-FOR")] ;;;
     unauthorize rp (simple_oerr EInvalidToken) ;;; Ret (false, r))
    (logm LError InterfaceUnsupported [("method", "FindOAuthTokenByAccessToken")] ;;;
     call (OStatus 500) ;;; Ret (false, r))
    (logm LWarn InterfaceServerError
       [("method", "FindOAuthTokenByAccessToken"); ("access_token", rt)] ;;;
     call (OStatus 500) ;;; Ret (false, r))
    (logm LError InterfaceError [("method", "FindOAuthTokenByAccessToken")] ;;;
     call (OStatus 500) ;;; Ret (false, r))
  (fun at_ =>
  now <- call ONow ;;                                                          (* 170 *)
  if (add64 (ot_refreshed at_) (ot_access_expires at_) <? now)%Z then          (* 170-183 *)
    now2 <- call ONow ;;
    logm LInfo NoEnabledAuthInfo
      [("access_token", rt); ("refreshed_at", itoa (ot_refreshed at_));
       ("access_token_expires_in", itoa (ot_access_expires at_)); ("current_time", itoa now2)] ;;;
    unauthorize rp (new_oerr EInvalidToken "your access_token is expired") ;;; Ret (false, r)
  else
  ri <- call (OFindActiveInfo (ot_auth_id at_)) ;;                             (* 185-222 *)
  match ri with
  | (_, Some ErrFailed) =>
      logm LInfo NoEnabledAuthInfo [("method", "FindActiveAuthInfoById"); ("access_token", rt)] ;;;
      unauthorize rp (simple_oerr EInvalidToken) ;;; Ret (false, r)
  | (_, Some ErrUnsupported) =>
      logm LError InterfaceUnsupported [("method", "FindActiveAuthInfoById")] ;;;
      call (OStatus 500) ;;; Ret (false, r)
  | (_, Some _) =>
      logm LWarn InterfaceServerError [("method", "FindActiveAuthInfoById"); ("access_token", rt)] ;;;
      call (OStatus 500) ;;; Ret (false, r)
  | (None, None) => Panic            (* 224-233 test [at == nil]; 235 dereferences [info] *)
  | (Some info, None) =>                                                       (* 235-239 *)
      Ret (true,
           header_set (header_set (header_set r "X-OAUTH-USER-ID" (itoa (ai_user info)))
                         "X-OAUTH-CLIENT-ID" (ai_client info))
             "X-OAUTH-SCOPE" (ai_scope info))
  end).

(** [scopeMap map[string][]string]: resource_protector.go:81-82, 88 *)
Definition scope_map := list (string * list string).
Fixpoint sm_get (p : string) (m : scope_map) : option (list string) :=
  match m with
  | [] => None
  | (q, l) :: r => if p =s? q then Some l else sm_get p r
  end.

(** resource_protector.go:81-102 [ValidateWithScopes] *)
Definition validate_with_scopes (rp : protector) (r : request) (m : scope_map)
  : prog (bool * request) :=
  '(ok, r') <- validate rp r ;;
  if negb ok then Ret (false, r')
  else
  match sm_get (r_path r') m with
  | None => Ret (true, r')
  | Some scopes =>
      let '(all, missing) := scope_include_all (header_get r' "X-OAUTH-SCOPE") scopes in
      if all then Ret (true, r')
      else
        unauthorize rp (new_oerr EInsufficientScope
          ("this endpoint requires " ++ go_quote missing
           ++ " scope, but the access_token was't issued for.")) ;;;
        Ret (false, r')
  end.
