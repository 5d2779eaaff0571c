(** * assertion/error.go and the control flow of [jwt.Parse]. *)
From Verif Require Import Core OAuthError.

(** What [jwt.Parse] reports: [*jwt.ValidationError] by the flags goidc tests.
    [VUnverifiable (Some e)]: the key function returned the OAuthError [e]. *)
Inductive verr :=
| VUnverifiable (inner : option oauth_error)
| VMalformed
| VFlags (bad_sig : bool) (cf : cflags).

(** Result of a key function: an error (an OAuthError or another one), or a key. *)
Definition keyres : Type := (option oauth_error + key)%type.

(** Control flow of github.com/golang-jwt/jwt [Parser.ParseWithClaims] (an
    external dependency; called at token_endpoint.go:162, grant/jwt.go:41,
    authorization_endpoint.go:729): parse, get the key, check the claims at the
    library's clock, check the signature.  The key function may assign the
    captured client variable, so it returns it; [c0] is its initial value. *)
Definition jwt_parse (J : jwtlib) (raw : string) (c0 : option client)
  (keyf : jtoken -> prog (option client * keyres)) : prog (option client * (verr + jtoken)) :=
  match jl_parse J raw with
  | PMalformed => Ret (c0, inl VMalformed)
  | PNoAlg => Ret (c0, inl (VUnverifiable None))
  | PToken t =>
      '(c, kr) <- keyf t ;;
      match kr with
      | inl e => Ret (c, inl (VUnverifiable e))
      | inr k =>
          now <- call OJwtNow ;;
          let cf := jl_claims J now (jt_claims t) in
          let ok := jl_verify J raw k in
          if (ok && negb (cf_expired cf || cf_iat cf || cf_nbf cf))%bool
          then Ret (c, inr t)
          else Ret (c, inl (VFlags (negb ok) cf))
      end
  end.

(** [c.GetId()] panics when [c] is nil. *)
Definition with_id {B} (c : option client) (k : string -> prog B) : prog B :=
  match c with None => Panic | Some c => k (c_id c) end.

(** assertion/error.go:121-129, 142-150: [json.Number] or [float64]. *)
Definition jint (m : jmap) (k : string) : option Z :=
  match jget k m with
  | Some (JNumber (Some z)) => Some z
  | Some (JFloat z) => Some z
  | _ => None
  end.

(** assertion/error.go:13-243 [HandleAssertionError].  The branch [!t.Valid]
    (lines 102-112) cannot be taken: jwt.Parse returns no error only for a
    token it has marked valid; it is left out. *)
Definition handle_assertion_error (a : string) (res : verr + jtoken) (c : option client)
  : prog (option oauth_error) :=
  match res with
  | inl (VUnverifiable (Some inner)) =>                                       (* 21-33 *)
      logm LDebug AssertionConditionMismatch [("assertion", a)] ;;; Ret (Some inner)
  | inl (VUnverifiable None) =>                                               (* 35-44 *)
      logm LDebug AssertionConditionMismatch [("assertion", a)] ;;;
      Ret (Some (new_oerr EInvalidGrant "assertion unverifiable"))
  | inl VMalformed =>                                                         (* 47-56 *)
      with_id c (fun id =>
      logm LDebug AssertionConditionMismatch [("assertion", a); ("client_id", id)] ;;;
      Ret (Some (new_oerr EInvalidGrant "invalid assertion format")))
  | inl (VFlags bad cf) =>
      with_id c (fun id =>
      if bad then                                                             (* 58-68 *)
        logm LInfo AssertionConditionMismatch [("assertion", a); ("client_id", id)] ;;;
        Ret (Some (new_oerr EInvalidClient "invalid assertion signature"))
      else if cf_expired cf then                                              (* 70-79 *)
        logm LInfo AssertionConditionMismatch [("assertion", a); ("client_id", id)] ;;;
        Ret (Some (new_oerr EInvalidGrant "assertion expired"))
      else if cf_nbf cf then                                                  (* 81-90 *)
        logm LInfo AssertionConditionMismatch [("assertion", a); ("client_id", id)] ;;;
        Ret (Some (new_oerr EInvalidGrant "assertion not valid yet"))
      else                                                                    (* 92-99 *)
        logm LWarn AssertionConditionMismatch [("assertion", a); ("client_id", id)] ;;;
        Ret (Some (new_oerr EInvalidGrant "invalid assertion")))
  | inr t =>
      let claims := jt_claims t in
      match jint claims "exp" with
      | None =>                                                               (* 131-140 *)
          with_id c (fun id =>
          logm LDebug MissingParam [("param", "exp"); ("client_id", id)] ;;;
          Ret (Some (new_oerr EInvalidRequest "'exp' parameter not found in assertion")))
      | Some exp =>
          let iat := match jint claims "iat" with Some z => z | None => (-1)%Z end in  (* 142-153 *)
          let jti := or_empty (jstr "jti" claims) in                          (* 155-157 *)
          with_id c (fun id =>                                                (* 159 *)
          r <- call (ORecord id jti iat exp) ;;
          echeck r
            (logm LInfo AssertionConditionMismatch
               [("method", "RecordAssertionClaims"); ("client_id", id); ("jti", jti);
                ("exp", itoa exp); ("iat", itoa iat); ("assertion", a)] ;;;
             Ret (Some (simple_oerr EInvalidRequest)))                        (* 161-175 *)
            (logm LError InterfaceUnsupported
               [("method", "RecordAssertionClaims"); ("client_id", id)] ;;;
             Ret (Some (simple_oerr EServerError)))                           (* 177-187 *)
            (logm LWarn InterfaceServerError
               [("method", "RecordAssertionClaims"); ("client_id", id); ("jti", jti);
                ("exp", itoa exp); ("iat", itoa iat); ("assertion", a)] ;;;
             Ret (Some (simple_oerr EServerError)))                           (* 189-203 *)
            (match jstr "aud" claims with
             | None =>                                                        (* 208-218 *)
                 logm LDebug MissingParam [("param", "aud"); ("client_id", id)] ;;;
                 Ret (Some (new_oerr EInvalidRequest "'aud' parameter not found in assertion"))
             | Some aud =>
                 service <- call OIssuer ;;                                   (* 220 *)
                 if service =s? "" then                                       (* 221-229 *)
                   logm LError InterfaceUnsupported [("method", "Issure")] ;;;
                   Ret (Some (simple_oerr EServerError))
                 else if negb (aud =s? service) then                          (* 231-240 *)
                   logm LInfo AssertionConditionMismatch [("assertion", a); ("client_id", id)] ;;;
                   Ret (Some (new_oerr EInvalidGrant
                                ("invalid 'aud' parameter '" ++ aud ++ "' in assertion")))
                 else Ret None                                                (* 242 *)
             end))
      end
  end.
