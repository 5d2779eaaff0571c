(** * authorization_endpoint.go *)
From Verif Require Import Core Json OAuthError IdToken Assertion AuthzResponse.

(** authorization/request.go:11-16 *)
Definition ErrMissingClientId := 0%Z.
Definition ErrMissingRedirectURI := 1%Z.
Definition ErrInvalidRedirectURI := 2%Z.
Definition ErrServerErrorScreen := 3%Z.

Definition kind_of (req : arequest) : rkind := handler_for_mode (rq_mode req).

(** [rh.Error(ruri, typ, desc, state); return false] for a stored request. *)
Definition answer_error (E : env) (req : arequest) (typ desc : string) : prog bool :=
  rh_error E (kind_of req) (rq_redirect req) typ desc (rq_state req) ;;; Ret false.

(** The pattern [a.logger.Error(InterfaceError ...); rh.Error(server_error)]
    after a failed callback. *)
Definition callback_failed (E : env) (req : arequest) (method : string) : prog bool :=
  logm LError InterfaceError [("method", method)] ;;;
  answer_error E req "server_error" "".

(** authorization_endpoint.go:1045-1086 [completeAuthorizationCodeFlowRequest] *)
Definition complete_code (E : env) (pol : policy) (info : option authinfo) (req : arequest) : prog bool :=
  rc <- call OCreateCode ;;
  match rc with
  | None => callback_failed E req "CreateAuthorizationCode"
  | Some code =>
      ra <- call OAuthTime ;;
      match ra with
      | None => callback_failed E req "GetAuthTime"
      | Some auth_time =>
          rs <- call (OCreateSession info (to_session req code (p_session_expires pol) auth_time)) ;;
          match rs with
          | Some _ => answer_error E req "server_error" ""
          | None =>
              let params := (("code", code)
                 :: (if rq_state req =s? "" then [] else [("state", rq_state req)]))%list in
              rh_success E (kind_of req) (rq_redirect req) params ;;; Ret true
          end
      end
  end.

(** authorization_endpoint.go:1101-1107, 1202-1209: state and scope *)
Definition state_scope (req : arequest) : kvs :=
  ((if rq_state req =s? "" then [] else [("state", rq_state req)])
   ++ (if rq_scope req =s? "" then [] else [("scope", rq_scope req)]))%list.

(** authorization_endpoint.go:1088-1155 [completeImplicitFlowRequest].
    [f] is the dereferenced [req.Flow]. *)
Definition complete_implicit (E : env) (pol : policy) (info : option authinfo) (req : arequest)
  (f : flow) : prog bool :=
  rcl <- call (OFindClient (rq_client req)) ;;
  match rcl with
  | (_, Some _) => answer_error E req "server_error" ""
  | (clnt, None) =>
      let after (access : string) (params : kvs) : prog bool :=
        ra <- call OAuthTime ;;
        match ra with
        | None => callback_failed E req "GetAuthTime"
        | Some auth_time =>
            if f_id f then
              match clnt with
              | None => Panic                                                  (* 1135 *)
              | Some c =>
                  iss <- call OIssuer ;;
                  match info with
                  | None => Panic                                              (* 1139 *)
                  | Some i =>
                      now <- call ONow ;;
                      match gen_implicit (e_jwt E) (c_alg c) (c_key c) (c_kid c) iss
                              (ai_client i) (ai_subject i) (rq_nonce req)
                              (p_idt_expires pol) auth_time access now with
                      | None => answer_error E req "server_error" ""
                      | Some idt =>
                          rh_success E (kind_of req) (rq_redirect req)
                            (params ++ [("id_token", idt)])%list ;;; Ret true
                      end
                  end
              end
            else rh_success E (kind_of req) (rq_redirect req) params ;;; Ret true
        end in
      if f_access f then
        rt <- call (OCreateToken info false) ;;
        match rt with
        | (_, Some _) => answer_error E req "server_error" ""
        | (None, None) => Panic                                                (* 1115 *)
        | (Some t, None) =>
            after (ot_access t)
              (state_scope req ++ [("access_token", ot_access t); ("token_type", "bearer");
                                   ("rexpires_in", itoa (ot_access_expires t))])%list
        end
      else after "" (state_scope req)
  end.

(** authorization_endpoint.go:1157-1247 [completeHybridFlowRequest] *)
Definition complete_hybrid (E : env) (pol : policy) (info : option authinfo) (req : arequest)
  (f : flow) : prog bool :=
  rc <- call OCreateCode ;;
  match rc with
  | None => callback_failed E req "CreateAuthorizationCode"
  | Some code =>
  ra <- call OAuthTime ;;
  match ra with
  | None => callback_failed E req "GetAuthTime"
  | Some auth_time =>
  rs <- call (OCreateSession info (to_session req code (p_session_expires pol) auth_time)) ;;
  match rs with
  | Some _ => answer_error E req "server_error" ""
  | None =>
  rcl <- call (OFindClient (rq_client req)) ;;
  match rcl with
  | (_, Some _) => answer_error E req "server_error" ""
  | (clnt, None) =>
      let after (access : string) (params : kvs) : prog bool :=
        if f_id f then
          match clnt with
          | None => Panic                                                      (* 1226 *)
          | Some c =>
              iss <- call OIssuer ;;
              match info with
              | None => Panic                                                  (* 1230 *)
              | Some i =>
                  now <- call ONow ;;
                  match gen_hybrid (e_jwt E) (c_alg c) (c_key c) (c_kid c) iss
                          (ai_client i) (ai_subject i) (rq_nonce req)
                          (p_idt_expires pol) auth_time access code now with
                  | None => answer_error E req "server_error" ""
                  | Some idt =>
                      rh_success E (kind_of req) (rq_redirect req)
                        (params ++ [("id_token", idt)])%list ;;; Ret true
                  end
              end
          end
        else rh_success E (kind_of req) (rq_redirect req) params ;;; Ret true in
      let params := (("code", code) :: state_scope req)%list in
      if f_access f then
        rt <- call (OCreateToken info false) ;;
        match rt with
        | (_, Some _) => answer_error E req "server_error" ""
        | (None, None) => Panic                                                (* 1218 *)
        | (Some t, None) =>
            after (ot_access t)
              (params ++ [("access_token", ot_access t); ("token_type", "bearer");
                          ("expires_in", itoa (ot_access_expires t))])%list
        end
      else after "" params
  end end end end.

(** authorization_endpoint.go:1029-1043 [complete]; [req.Flow] may be nil in a
    stored request. *)
Definition complete (E : env) (pol : policy) (info : option authinfo) (req : arequest) : prog bool :=
  match rq_flow req with
  | None => Panic
  | Some f =>
      match f_type f with
      | FAuthorizationCode => complete_code E pol info req
      | FImplicit => complete_implicit E pol info req f
      | FHybrid => complete_hybrid E pol info req f
      | FDirectGrant => Ret false
      end
  end.

(** authorization_endpoint.go:980-995 [CancelRequest] *)
Definition cancel_request (E : env) : prog bool :=
  rr <- call OContinue ;;
  match rr with
  | None => logm LError InterfaceError [("method", "Continue")] ;;; Ret false
  | Some None => Panic
  | Some (Some req) =>
      rh_error E (kind_of req) (rq_redirect req) "access_denied" "" (rq_state req) ;;; Ret true
  end.

(** authorization_endpoint.go:997-1027 [CompleteRequest] *)
Definition complete_request (E : env) (pol : policy) : prog bool :=
  rr <- call OContinue ;;
  match rr with
  | None => logm LError InterfaceError [("method", "Continue")] ;;; Ret false
  | Some None => Panic
  | Some (Some req) =>
      ru <- call OLoginUser ;;
      match ru with
      | None => callback_failed E req "GetLoginUserId"
      | Some uid =>
          ri <- call (OCreateInfo uid (rq_client req) (rq_scope req)) ;;
          match ri with
          | (_, Some _) => answer_error E req "server_error" ""
          | (info, None) => complete E pol info req
          end
      end
  end.

(** authorization_endpoint.go:625-626, 712-713, 821-822, 958-959: a recorded
    consent may stand in for a new one.  [currentTime] is called only when the
    first two conditions hold. *)
Definition consent_reusable (pol : policy) (info : authinfo) (req : arequest) : prog bool :=
  if (ai_active info && scope_same (ai_scope info) (rq_scope req))%bool then
    now <- call ONow ;;
    Ret (now <? add64 (ai_authorized_at info) (p_consent_period pol))%Z
  else Ret false.

(** authorization_endpoint.go:966-977 *)
Definition show_consent (E : env) (c : client) (req : arequest) : prog bool :=
  r <- call (OConsentScreen c req) ;;
  match r with
  | None => callback_failed E req "ShowConsentScreen"
  | Some _ => Ret true
  end.

(** authorization_endpoint.go:929-977 *)
Definition hr_consent (E : env) (pol : policy) (c : client) (req : arequest) : prog bool :=
  if include_consent (rq_prompt req) then show_consent E c req
  else
  match c_no_consent c with
  | OmitConsentIfCan =>
      ru <- call OLoginUser ;;
      match ru with
      | None => callback_failed E req "GetLoginUserId"
      | Some uid =>
          ri <- call (OFindInfo uid (rq_client req)) ;;
          match ri with
          | (_, Some ErrUnsupported) | (_, Some ErrServerError) =>
              answer_error E req "server_error" ""
          | (_, Some _) => show_consent E c req
          | (None, None) => answer_error E req "server_error" ""
          | (Some info, None) =>
              ok <- consent_reusable pol info req ;;
              if ok then complete E pol (Some info) req else show_consent E c req
          end
      end
  | _ => show_consent E c req
  end.

(** authorization_endpoint.go:903-927 *)
Definition hr_max_age (E : env) (pol : policy) (c : client) (req : arequest) (mas : string) : prog bool :=
  ra <- call OAuthTime ;;
  match ra with
  | None => callback_failed E req "GetAuthTime"
  | Some auth_time =>
      if (0 <? rq_max_age req)%Z then
        now <- call ONow ;;
        let age := sub64 now auth_time in
        if (rq_max_age req <? age)%Z then
          logm LDebug LoginRequired [("max_age", mas)] ;;;
          call (OLoginScreen req) ;;;
          Ret false
        else hr_consent E pol c req
      else hr_consent E pol c req
  end.

(** authorization_endpoint.go:872-901 *)
Definition hr_login (E : env) (pol : policy) (c : client) (req : arequest) (mas : string) : prog bool :=
  if include_login (rq_prompt req) then
    rl <- call OFromLogin ;;
    match rl with
    | None => callback_failed E req "RequestIsFromLogin"
    | Some false =>
        logm LDebug LoginRequired [("prompt", rq_prompt req)] ;;;
        call (OLoginScreen req) ;;;
        Ret false
    | Some true => hr_max_age E pol c req mas
    end
  else hr_max_age E pol c req mas.

(** authorization_endpoint.go:594-632, 681-719, 790-828: look up the consent of
    the logged-in user and complete, or answer consent_required. *)
Definition none_tail (E : env) (pol : policy) (req : arequest) : prog bool :=
  ru <- call OLoginUser ;;
  match ru with
  | None => callback_failed E req "GetLoginUserId"
  | Some uid =>
      ri <- call (OFindInfo uid (rq_client req)) ;;
      match ri with
      | (_, Some ErrUnsupported) | (_, Some ErrServerError) => answer_error E req "server_error" ""
      | (_, Some _) => answer_error E req "consent_required" ""
      | (None, None) => answer_error E req "server_error" ""
      | (Some info, None) =>
          ok <- consent_reusable pol info req ;;
          if ok then complete E pol (Some info) req
          else answer_error E req "consent_required" ""
      end
  end.

(** authorization_endpoint.go:574-592, 642-660: a login session or login_required *)
Definition none_session (E : env) (req : arequest) (k : prog bool) : prog bool :=
  rs <- call OConfirmLogin ;;
  match rs with
  | None => callback_failed E req "ConfirmLoginSession"
  | Some false => answer_error E req "login_required" ""
  | Some true => k
  end.

(** authorization_endpoint.go:662-679, 771-788 *)
Definition none_match (E : env) (req : arequest) (sub what : string) (k : prog bool) : prog bool :=
  rm <- call (OMatchSubject sub) ;;
  match rm with
  | None => callback_failed E req "LoginUserIsMatchedToHint"
  | Some false =>
      answer_error E req "invalid_request" ("'" ++ what ++ "' doesn't match to current login user")
  | Some true => k
  end.

(** authorization_endpoint.go:552-829: prompt=none.  A policy value outside the
    four constants falls through the switch to line 872. *)
Definition hr_none (E : env) (pol : policy) (c : client) (req : arequest) (mas : string) : prog bool :=
  match c_none c with
  | NoneForbidden =>                                                           (* 558-570 *)
      logm LDebug InvalidPrompt [("prompt", "none")] ;;;
      answer_error E req "interaction_required" "not allowed to use 'prompt:none'"
  | NoneAllowWithLoginSession =>                                               (* 572-632 *)
      none_session E req (none_tail E pol req)
  | NoneAllowIfLoginHintMatched =>                                             (* 633-719 *)
      if rq_login_hint req =s? "" then
        answer_error E req "invalid_request"
          "in case you pass 'none' for 'prompt', 'login_hint' is required."
      else none_session E req
             (none_match E req (rq_login_hint req) "login_hint" (none_tail E pol req))
  | NoneAllowIfIdTokenHintMatched =>                                           (* 720-828 *)
      if rq_idt_hint req =s? "" then
        answer_error E req "invalid_request"
          "in case you pass 'none' for 'prompt', 'id_token_hint' is required."
      else
        '(_, res) <- jwt_parse (e_jwt E) (rq_idt_hint req) (Some c)
                       (fun _ => Ret (Some c, match c_key c with
                                              | Some k => inr k
                                              | None => inr (KOther 0)  (* a nil key *)
                                              end)) ;;
        match res with
        | inl _ => answer_error E req "invalid_request" "'id_token_hint' is invalid."   (* 733-743 *)
        | inr t =>
            match jint (jt_claims t) "exp" with                                (* 744-760 *)
            | None => answer_error E req "invalid_request" "'exp' not found in 'id_token_hint'."
            | Some _ =>
                match jstr "sub" (jt_claims t) with                            (* 761-769 *)
                | None => answer_error E req "invalid_request" "'sub' not found in 'id_token_hint'."
                | Some sub => none_match E req sub "id_token_hint" (none_tail E pol req)
                end
            end
        end
  | NoneOther => hr_login E pol c req mas
  end.

(** authorization_endpoint.go:831-870: interactive requests *)
Definition hr_session (E : env) (pol : policy) (c : client) (req : arequest) (mas : string) : prog bool :=
  rs <- call OConfirmLogin ;;
  match rs with
  | None => callback_failed E req "ConfirmLoginSession"
  | Some false =>
      logm LDebug LoginRequired [] ;;;
      rl <- call (OLoginScreen req) ;;
      match rl with
      | None => callback_failed E req "ShowLoginScreen"
      | Some _ => Ret false
      end
  | Some true => hr_login E pol c req mas
  end.

(** authorization_endpoint.go:552-978: everything after the request was built *)
Definition hr_after (E : env) (pol : policy) (c : client) (req : arequest) (mas : string) : prog bool :=
  if rq_prompt req =s? PNone then hr_none E pol c req mas
  else hr_session E pol c req mas.

(** An error answer before the request was built; [None]: answered. *)
Definition early {A} (E : env) (mode ruri typ desc state : string) : prog (option A) :=
  rh_error E (handler_for_mode mode) ruri typ desc state ;;; Ret None.

(** authorization_endpoint.go:48-144: client_id, redirect_uri and the client.
    [None]: an error screen was shown.  An error of another type than the three
    constants falls through to line 131, where a nil client panics. *)
Definition hr_client (r : request) : prog (option (client * string * string)) :=
  let cid := form_value r "client_id" in                                       (* 48-60 *)
  if cid =s? "" then
    logm LDebug MissingParam [("param", "client_id")] ;;;
    call (OErrorScreen ErrMissingClientId) ;;; Ret None
  else
  let ruri := form_value r "redirect_uri" in                                   (* 62-74 *)
  if ruri =s? "" then
    logm LDebug MissingParam [("param", "redirect_uri")] ;;;
    call (OErrorScreen ErrMissingRedirectURI) ;;; Ret None
  else
  let check (c : client) :=                                                    (* 131-144 *)
    if c_can_redirect c ruri then Ret (Some (c, cid, ruri))
    else
      logm LInfo RedirectURIMismatch
        [("method", "CanUseRedirectURI"); ("client_id", cid); ("redirect_uri", ruri)] ;;;
      call (OErrorScreen ErrInvalidRedirectURI) ;;; Ret None in
  rc <- call (OFindClient cid) ;;                                              (* 76-129 *)
  match rc with
  | (_, Some ErrFailed) =>
      logm LInfo NoEnabledClient [("method", "FindClientById"); ("client_id", cid)] ;;;
      call (OErrorScreen ErrMissingClientId) ;;; Ret None
  | (_, Some ErrUnsupported) =>
      logm LError InterfaceUnsupported [("method", "FindClientById")] ;;;
      call (OErrorScreen ErrServerErrorScreen) ;;; Ret None
  | (_, Some ErrServerError) =>
      logm LError InterfaceError [("method", "FindClientById"); ("client_id", cid)] ;;;
      call (OErrorScreen ErrServerErrorScreen) ;;; Ret None
  | (Some c, Some (ErrOther _)) => check c
  | (None, Some (ErrOther _)) => Panic
  | (None, None) =>
      logm LError InterfaceError [("method", "FindClientById"); ("client_id", cid)] ;;;
      call (OErrorScreen ErrServerErrorScreen) ;;; Ret None
  | (Some c, None) => check c
  end.

(** authorization_endpoint.go:181-191 *)
Definition default_mode (pol : policy) (t : flow_type) : string :=
  match t with
  | FAuthorizationCode => p_code_mode pol
  | FImplicit => p_implicit_mode pol
  | FHybrid => p_implicit_mode pol
  | FDirectGrant => p_code_mode pol
  end.

(** authorization_endpoint.go:149-266: response_type and response_mode.
    Result: the flow, the response mode and the raw response_type. *)
Definition hr_mode (E : env) (pol : policy) (r : request) (ruri state : string)
  : prog (option (flow * string * string)) :=
  let rmode := form_value r "response_mode" in
  let rt := form_value r "response_type" in
  if rt =s? "" then                                                            (* 149-162 *)
    logm LDebug MissingParam [("param", "response_type")] ;;;
    early E rmode ruri "invalid_request" "missing 'response_type'" state
  else
  match judge_response_type rt with
  | None =>                                                                    (* 164-179 *)
      logm LDebug InvalidResponseType [("response_type", rt)] ;;;
      early E rmode ruri "invalid_request" ("invalid 'response_type:" ++ rt ++ "'") state
  | Some f =>
      let def := default_mode pol (f_type f) in
      (* 193-234 *)
      m1 <- (if rmode =s? "" then
               logm LDebug MissingParam [("response_mode", def)] ;;; Ret (Some def)
             else if rmode_validate rmode then Ret (Some rmode)
             else if p_ignore_bad_mode pol then
               logm LDebug InvalidResponseMode [("response_mode", rmode); ("default", def)] ;;;
               Ret (Some def)
             else
               logm LDebug InvalidResponseMode [("response_mode", rmode)] ;;;
               early E def ruri "invalid_request" ("unknown 'response_mode': '" ++ rmode ++ "'") state) ;;
      match m1 with
      | None => Ret None
      | Some m =>
          (* 236-266 *)
          if p_level_check pol then
            if rmode_compare m def then Ret (Some (f, m, rt))
            else if p_ignore_bad_mode pol then
              logm LDebug InvalidResponseMode [("response_mode", m); ("default", def)] ;;;
              Ret (Some (f, def, rt))
            else
              logm LDebug InvalidResponseMode [("response_mode", m)] ;;;
              early E def ruri "invalid_request"
                ("'response_mode:" ++ m ++ "' isn't allowed for 'response_type:" ++ rt ++ "'") state
          else Ret (Some (f, m, rt))
      end
  end.

(** authorization/request.go:24-29 and authorization_endpoint.go:284-306 *)
Definition display_ok (d : string) : bool :=
  (d =s? "page") || (d =s? "popup") || (d =s? "wap") || (d =s? "touch").

(** authorization_endpoint.go:308-354: max_age.  [inl desc]: refused. *)
Definition max_age_check (pol : policy) (mas : string) : (string * kvs) + Z :=
  if mas =s? "" then inr 0%Z
  else match atoi mas with
       | None => inl ("'max_age' should be integer: '" ++ mas ++ "'", [])
       | Some ma =>
           if (ma <? p_min_max_age pol)%Z then
             inl ("'max_age' should be greater than " ++ itoa (sub64 (p_min_max_age pol) 1),
                  [("max_age", mas)])
           else if (p_max_max_age pol <? ma)%Z then
             inl ("'max_age' should be less than " ++ itoa (add64 (p_max_max_age pol) 1),
                  [("max_age", mas)])
           else inr ma
       end.

(** authorization_endpoint.go:385-422: offline_access.  [None]: refused. *)
Definition offline_scope (pol : policy) (f : flow) (prmpt scp : string) : prog (option string) :=
  if include_offline scp then
    if (flow_eqb (f_type f) FImplicit || negb (include_consent prmpt))%bool then
      logm LDebug InvalidScope [("scope", "offline_access")] ;;;
      Ret (Some (remove_offline scp))
    else if negb (p_allow_empty_scope pol) then
      if (slen (remove_offline (remove_openid scp)) =? 0)%Z then
        logm LDebug InvalidScope [("scope", "offline_access")] ;;; Ret None
      else Ret (Some scp)
    else Ret (Some scp)
  else Ret (Some scp).

(** authorization_endpoint.go:268-550: the remaining parameters. *)
Definition hr_params (E : env) (pol : policy) (r : request) (c : client) (cid ruri state : string)
  (f : flow) (rmode rt : string) : prog (option arequest) :=
  let refuse_ (typ desc : string) : prog (option arequest) := early E rmode ruri typ desc state in
  if negb (c_can_flow c (f_type f)) then                                       (* 270-282 *)
    logm LDebug InvalidResponseType [("response_type", rt); ("flow_type", flow_name (f_type f))] ;;;
    refuse_ "unauthorized_client" ""
  else
  let d := form_value r "display" in                                           (* 284-306 *)
  if (negb (d =s? "") && negb (display_ok d))%bool then
    logm LDebug InvalidDisplay [("display", d)] ;;;
    refuse_ "invalid_request" ("unknown 'display': '" ++ d ++ "'")
  else
  let display := if d =s? "" then "page" else d in
  let mas := form_value r "max_age" in
  match max_age_check pol mas with                                             (* 308-354 *)
  | inl (desc, attrs) =>
      logm LDebug InvalidMaxAge attrs ;;; refuse_ "invalid_request" desc
  | inr ma =>
  let p := form_value r "prompt" in                                            (* 356-383 *)
  if (negb (p =s? "") && negb (prompt_validate p))%bool then
    logm LDebug InvalidPrompt [("prompt", p)] ;;;
    refuse_ "invalid_request" ("invalid 'prompt': '" ++ p ++ "'")
  else
  (if p =s? "" then logm LDebug MissingParam [("param", "prompt")] else Ret tt) ;;;
  os <- offline_scope pol f p (form_value r "scope") ;;                        (* 385-422 *)
  match os with
  | None =>
      refuse_ "invalid_request"
        "when you request 'offline_access' scope, you should set other scope except for 'openid'"
  | Some scp =>
  if ((scp =s? "") && negb (p_allow_empty_scope pol))%bool then                (* 424-435 *)
    logm LDebug InvalidScope [] ;;; refuse_ "invalid_request" "missing 'scope'"
  else if (f_id f && negb (include_openid scp))%bool then                      (* 437-451 *)
    logm LDebug InvalidScope [("response_type", rt); ("scope", scp)] ;;;
    refuse_ "invalid_request"
      ("'response_type:" ++ rt ++ "' requires id_token, but 'scope' doesn't include 'openid'")
  else if negb (c_can_scope c (f_type f) scp) then                             (* 453-465 *)
    logm LDebug InvalidScope [("scope", scp); ("client_id", cid)] ;;;
    refuse_ "invalid_scope" ""
  else
  let n := form_value r "nonce" in                                             (* 467-485 *)
  if (negb (flow_eqb (f_type f) FAuthorizationCode) && include_openid scp && f_id f && (n =s? ""))%bool then
    logm LDebug MissingParam [("param", "nonce"); ("response_type", rt)] ;;;
    refuse_ "invalid_request" ("'response_type:" ++ rt ++ "' requires 'nonce' parameter")
  else if (negb (n =s? "") && (p_max_nonce pol <? slen n)%Z)%bool then         (* 487-501 *)
    logm LDebug InvalidNonce [("nonce", n)] ;;;
    refuse_ "invalid_request"
      ("length of 'nonce' should be less than " ++ itoa (add64 (p_max_nonce pol) 1))
  else
  let verifier := form_value r "code_verifier" in                              (* 503-518 *)
  if (negb (verifier =s? "") && (p_max_verifier pol <? slen verifier)%Z)%bool then
    logm LDebug InvalidCodeVerifier [("code_verifier", verifier)] ;;;
    refuse_ "invalid_request"
      ("length of 'code_verifier' should be less than " ++ itoa (add64 (p_max_verifier pol) 1))
  else
  rl <- call (OChooseLocale (form_value r "ui_locales")) ;;                    (* 520-533 *)
  match rl with
  | None => logm LError InterfaceError [("method", "ChooseLocale")] ;;; refuse_ "server_error" ""
  | Some locale =>
      Ret (Some (ARequest (Some f) cid scp ruri rmode state verifier n display p ma locale
                          (form_value r "id_token_hint") (form_value r "login_hint")))  (* 535-550 *)
  end end end.

(** authorization_endpoint.go:45-978 [HandleRequest] *)
Definition handle_request (E : env) (pol : policy) (r : request) : prog bool :=
  oc <- hr_client r ;;
  match oc with
  | None => Ret false
  | Some (c, cid, ruri) =>
      let state := form_value r "state" in                                     (* 146 *)
      om <- hr_mode E pol r ruri state ;;
      match om with
      | None => Ret false
      | Some (f, rmode, rt) =>
          oq <- hr_params E pol r c cid ruri state f rmode rt ;;
          match oq with
          | None => Ret false
          | Some req => hr_after E pol c req (form_value r "max_age")
          end
      end
  end.
