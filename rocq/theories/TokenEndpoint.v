(** * token_endpoint.go *)
From Verif Require Import Core Json OAuthError Assertion Grants.

(** token_endpoint.go:18-24.  The Go type is an int; [AcceptOther] is any other
    value (the [default] branches). *)
Inductive accept := FromHeader | FromHeaderAndPostBody | FromAll | AcceptOther.

(** token_endpoint.go:32-40.  [te_handlers] lists the registrations, the last
    one first; [te_uri] is the errorURIBuilder. *)
Record token_endpoint := TokenEndpoint {
  te_realm : string;
  te_handlers : list (string * handler);
  te_uri : option (oerr_type -> string);
  te_accept : accept;
  te_accept_assertion : bool }.

(** token_endpoint.go:67-76 [NewTokenEndpoint] *)
Definition new_token_endpoint (realm : string) : token_endpoint :=
  TokenEndpoint realm [] None FromHeader false.

(** token_endpoint.go:78-80 [Support] *)
Definition te_support (te : token_endpoint) (name : string) (h : handler) : token_endpoint :=
  TokenEndpoint (te_realm te) ((name, h) :: te_handlers te) (te_uri te) (te_accept te)
                (te_accept_assertion te).

Fixpoint find_handler (gt : string) (l : list (string * handler)) : option handler :=
  match l with
  | [] => None
  | (n, h) :: r => if gt =s? n then Some h else find_handler gt r
  end.

(** token_endpoint.go:26-30, 404-408 [setCommonResponseHeader].  Simplification:
    Go ranges over a map, so the order of the three (distinct) headers varies;
    here it is fixed. *)
Definition set_common_headers : prog unit :=
  call (OSetHeader "Cache-Control" "no-store") ;;;
  call (OSetHeader "Pragma" "no-cache") ;;;
  call (OSetHeader "Content-Type" "application/json; charset=UTF-8").

(** token_endpoint.go:419-421, 428-430: the error URI is filled in. *)
Definition with_uri (u : option (oerr_type -> string)) (e : oauth_error) : oauth_error :=
  match u with
  | Some f => if oe_uri e =s? "" then OErr (oe_type e) (oe_desc e) (f (oe_type e)) else e
  | None => e
  end.

(** token_endpoint.go:410-414 [success] *)
Definition te_success (res : response) : prog unit :=
  set_common_headers ;;; call (OStatus 200) ;;; call (OBody (response_json res)).

(** token_endpoint.go:426-433 [fail] *)
Definition te_fail (te : token_endpoint) (e : oauth_error) : prog unit :=
  set_common_headers ;;;
  call (OStatus (oerr_status (oe_type e))) ;;;
  call (OBody (oerr_json (with_uri (te_uri te) e))).

(** token_endpoint.go:416-424 [failWithAuthHeader] *)
Definition te_fail_auth (te : token_endpoint) (e : oauth_error) : prog unit :=
  call (OSetHeader "WWW-Authenticate"
          ("Basic realm=" ++ String dquote (te_realm te ++ String dquote ""))) ;;;
  set_common_headers ;;;
  call (OStatus 401) ;;;
  call (OBody (oerr_json (with_uri (te_uri te) e))).

(** token_endpoint.go:357-363 [failByInvalidClientError] *)
Definition te_fail_client (te : token_endpoint) (in_header : bool) : prog unit :=
  if in_header then te_fail_auth te (simple_oerr EInvalidClient)
  else te_fail te (simple_oerr EInvalidClient).

(** token_endpoint.go:365-392 [findClientCredential]: id, secret, from header *)
Definition find_client_credential (te : token_endpoint) (r : request)
  : option (string * string * bool) :=
  match basic_auth r with
  | Some (cid, sec) => Some (cid, sec, true)
  | None =>
      let pick (value : string -> string) :=
        let cid := value "client_id" in
        let sec := value "client_secret" in
        if (negb (cid =s? "") && negb (sec =s? ""))%bool then Some (cid, sec, false) else None in
      match te_accept te with
      | FromHeader => None
      | FromHeaderAndPostBody => pick (post_form_value r)
      | FromAll => pick (form_value r)
      | AcceptOther => None
      end
  end.

Definition ClientAssertionTypeJWT := "urn:ietf:params:oauth:client-assertion-type:jwt-bearer". (* :16 *)

(** token_endpoint.go:394-402 [findClientAssertion] *)
Definition find_client_assertion (r : request) : option string :=
  let ca := form_value r "client_assertion" in
  let cat := form_value r "client_assertion_type" in
  if (negb (ca =s? "") && (cat =s? ClientAssertionTypeJWT))%bool then Some ca else None.

(** token_endpoint.go:162-262: the key function.  It assigns the captured
    variable [c]. *)
Definition te_keyf (ca : string) (t : jtoken) : prog (option client * keyres) :=
  match jstr "sub" (jt_claims t) with
  | None =>                                                                    (* 164-177 *)
      logm LDebug MissingParam [("assertion", ca)] ;;;
      Ret (None, inl (Some (new_oerr EInvalidRequest "'sub' parameter not found in assertion")))
  | Some cid =>
      rc <- call (OFindClient cid) ;;                                          (* 179-234 *)
      let c := fst rc in
      dcheck rc
        (logm LInfo NoEnabledClient
           [("method", "FindClientById"); ("assertion", ca); ("client_id", cid)] ;;;
         Ret (c, inl (Some (simple_oerr EInvalidClient))))
        (logm LError InterfaceUnsupported [("method", "FindClientById")] ;;;
         Ret (c, inl (Some (simple_oerr EServerError))))
        (logm LWarn InterfaceServerError
           [("method", "FindClientById"); ("assertion", ca); ("client_id", cid)] ;;;
         Ret (c, inl (Some (simple_oerr EServerError))))
        (logm LError InterfaceError
           [("method", "FindClientById"); ("assertion", ca); ("client_id", cid)] ;;;
         Ret (None, inl (Some (simple_oerr EServerError))))
      (fun cl =>
      let alg := or_empty (jstr "alg" (jt_header t)) in                        (* 236-244 *)
      let kid := or_empty (jstr "kid" (jt_header t)) in
      match c_assertion_key cl alg kid with                                    (* 246-261 *)
      | None =>
          logm LDebug MissingParam [("assertion", ca); ("method", "AssertionKey")] ;;;
          Ret (Some cl, inl None)
      | Some k => Ret (Some cl, inr k)
      end)
  end.

(** token_endpoint.go:153-271 [validateClientByAssertion].  [None]: refused and
    answered. *)
Definition validate_by_assertion (J : jwtlib) (te : token_endpoint) (ca : string)
  : prog (option client) :=
  '(c, res) <- jwt_parse J ca None (te_keyf ca) ;;
  oerr <- handle_assertion_error ca res c ;;
  match oerr with
  | Some e => te_fail te e ;;; Ret None
  | None => match c with
            | Some cl => Ret (Some cl)
            | None => Panic                                                    (* not reachable *)
            end
  end.

(** token_endpoint.go:273-339 [validateClientBySecret] *)
Definition validate_by_secret (te : token_endpoint) (r : request) (gt cid sec : string)
  (in_header : bool) : prog (option client) :=
  rc <- call (OFindClient cid) ;;
  dcheck rc
    (logm LDebug NoEnabledClient [("method", "FindClientById"); ("client_id", cid)] ;;;
     te_fail_client te in_header ;;; Ret None)
    (logm LError InterfaceUnsupported [("method", "FindClientById")] ;;;
     te_fail te (simple_oerr EServerError) ;;; Ret None)
    (logm LWarn InterfaceServerError [("method", "FindClientById"); ("client_id", cid)] ;;;
     te_fail te (simple_oerr EServerError) ;;; Ret None)
    (logm LError InterfaceError [("method", "FindClientById"); ("client_id", cid)] ;;;
     te_fail te (simple_oerr EServerError) ;;; Ret None)
  (fun c =>
  if negb (c_match_secret c sec) then                                          (* 317-328 *)
    logm LInfo AuthenticationFailed
      [("client_id", cid); ("remote_addr", header_get r "REMOTE_ADDR");
       ("x-forwarded-for", header_get r "X-FORWARDED-FOR")] ;;;
    te_fail_client te in_header ;;; Ret None
  else if negb (c_can_grant c gt) then                                         (* 329-336 *)
    logm LInfo UnauthorizedGrantType [("client_id", cid)] ;;;
    te_fail te (simple_oerr EUnauthorizedClient) ;;; Ret None
  else Ret (Some c)).

(** token_endpoint.go:341-355 [executeGrantHandler] *)
Definition execute_grant (te : token_endpoint) (r : request) (c : client) (h : handler) : prog unit :=
  now <- call ONow ;;
  res <- h r c now ;;
  match res with
  | inr e => te_fail te e
  | inl rs =>
      logm LDebug AccessTokenGranted [("client_id", c_id c)] ;;;
      te_success rs
  end.

(** token_endpoint.go:82-151 [Handler] *)
Definition token_handler (J : jwtlib) (te : token_endpoint) (r : request) : prog unit :=
  if negb (r_method r =s? "POST") then                                         (* 86-94 *)
    logm LDebug InvalidHTTPMethod [("http_method", r_method r)] ;;;
    call (OStatus 405)
  else
  let gt := form_value r "grant_type" in                                       (* 96-106 *)
  if gt =s? "" then
    logm LDebug MissingParam [("param", "grant_type")] ;;;
    te_fail te (new_oerr EInvalidRequest "missing 'grant_type' parameter")
  else
  match find_handler gt (te_handlers te) with
  | None =>                                                                    (* 108-118 *)
      logm LDebug UnsupportedGrantType [("grant_type", gt)] ;;;
      te_fail te (new_oerr EUnsupportedGrantType
                    ("unsupported 'grant_type' parameter: '" ++ gt ++ "'"))
  | Some h =>
      match find_client_credential te r with                                   (* 120-128 *)
      | Some (cid, sec, in_header) =>
          oc <- validate_by_secret te r gt cid sec in_header ;;
          match oc with
          | Some c => execute_grant te r c h
          | None => Ret tt
          end
      | None =>
          match (if te_accept_assertion te then find_client_assertion r else None) with
          | Some ca =>                                                         (* 130-140 *)
              oc <- validate_by_assertion J te ca ;;
              match oc with
              | Some c => execute_grant te r c h
              | None => Ret tt
              end
          | None =>                                                            (* 142-148 *)
              logm LDebug NoCredential [("grant_type", gt)] ;;;
              te_fail_auth te (simple_oerr EInvalidClient)
          end
      end
  end.
