(** * Vocabulary of the statements about the token endpoint and the grants.

    These definitions model no code: they say what the endpoint should do, in
    terms of the request, the answers of the data layer and RFC notions.  They
    use the parts of the model that are data (records, [form_value],
    [basic_auth]) and none of the handlers' helper functions. *)
From Verif Require Import GoStr Codec Sha Core OAuthError Grants TokenEndpoint Spec.

(** [w] is one of the space-separated words of [s]. *)
Definition has_word (s w : string) : Prop := exists l, words_of s l /\ In w l.

(** ** Outcome of a run *)

Definition all_good (tr : list event) : Prop := forall ev, In ev tr -> data_failure ev = None.

(** The errors a grant may end with (RFC 6749, 5.2, and server_error). *)
Definition grant_errors : list oerr_type :=
  [EInvalidRequest; EInvalidClient; EInvalidGrant; EInvalidScope; EServerError].

(** A refusal: the kind of error matches the failed data-layer call, if one failed. *)
Definition refusal (tr : list event) (e : oauth_error) : Prop :=
  In (oe_type e) grant_errors /\
  (forall ev, In ev tr -> data_failure ev = Some Refused -> oerr_status (oe_type e) = 400%Z) /\
  (forall ev, In ev tr -> data_failure ev = Some Broken -> oe_type e = EServerError).

(** ** ID tokens *)

(** [cs] has exactly the claims of an ID token; [None]: no such claim. *)
Definition id_claims (cs : claimset) (iss aud sub nonce : string) (exp auth_time iat : Z)
  (at_hash c_hash : option string) : Prop :=
  NoDup (map fst cs) /\
  forall k v, In (k, v) cs <->
    (k = "iss" /\ v = CStr iss) \/ (k = "aud" /\ v = CStr aud) \/ (k = "sub" /\ v = CStr sub) \/
    (k = "exp" /\ v = CInt exp) \/ (k = "nonce" /\ v = CStr nonce /\ nonce <> "") \/
    (k = "iat" /\ v = CInt iat /\ (0 <= iat)%Z) \/
    (k = "auth_time" /\ v = CInt auth_time /\ (0 <= auth_time)%Z) \/
    (exists h, at_hash = Some h /\ k = "at_hash" /\ v = CStr h) \/
    (exists h, c_hash = Some h /\ k = "c_hash" /\ v = CStr h).

(** [tok] is a JWT with claims [cs] signed with the client's algorithm and key,
    naming the key if it has a name. *)
Definition signed_for (J : jwtlib) (c : client) (cs : claimset) (tok : string) : Prop :=
  jl_has_alg J (c_alg c) = true /\
  exists kid, jl_sign J (c_alg c) kid cs (c_key c) = Some tok /\
    ((kid = None /\ c_kid c = "") \/ (kid = Some (c_kid c) /\ c_kid c <> "")).

(** ** Authorization codes *)

(** RFC 7636, 4.6, between a code challenge and a code verifier. *)
Definition rfc7636 (method challenge verifier : string) : Prop :=
  (method = "plain" /\ challenge = verifier) \/
  (method = "S256" /\ challenge = rfc4648_url (sha256 verifier)).

(** PKCE was satisfied: nothing to check, or the presented challenge is the one
    derived from the stored verifier. *)
Definition pkce_passed (r : request) (verifier : string) : Prop :=
  verifier = "" \/
  rfc7636 (form_value r "code_challenge_method") (form_value r "code_challenge") verifier.

(** All checks of the code exchange. *)
Definition code_checks (r : request) (c : client) (sess : authsession) (info : authinfo) : Prop :=
  form_value r "redirect_uri" <> "" /\ form_value r "code" <> "" /\
  ai_client info = c_id c /\ as_redirect sess = form_value r "redirect_uri" /\
  pkce_passed r (as_verifier sess).

(** The presented code named session [sess] of the active authorization [info]. *)
Definition found_calls (r : request) (sess : authsession) (info : authinfo) : list event :=
  [Ev (OFindSession (form_value r "code")) (Some sess, None);
   Ev (OFindActiveInfo (as_auth_id sess)) (Some info, None)].

(** A successful exchange with data-layer calls [dc] and response [rs]. *)
Definition code_success (J : jwtlib) (r : request) (c : client) (now : Z) (dc : list event)
  (rs : response) : Prop :=
  exists sess info tok,
    code_checks r c sess info /\
    rs_access rs = ot_access tok /\ rs_expires rs = ot_access_expires tok /\
    rs_refresh rs = ot_refresh tok /\ rs_scope rs = ai_scope info /\
    exists rest,
    dc = (found_calls r sess info ++
          [Ev (OCreateToken (Some info) true) (Some tok, None);
           Ev (ODisable sess) None] ++ rest)%list /\
    ((has_word (ai_scope info) "openid" /\
      exists iss cs, rest = [Ev OIssuer iss] /\
        id_claims cs iss (ai_client info) (ai_subject info) (as_nonce sess)
          (add64 now (as_idt_expires sess)) (as_auth_time sess) now None None /\
        signed_for J c cs (rs_id rs))
     \/ (~ has_word (ai_scope info) "openid" /\ rest = [] /\ rs_id rs = "")).

(** ** Refresh tokens *)

Definition refresh_checks (r : request) (c : client) (now : Z) (old : oauthtoken) (info : authinfo)
  : Prop :=
  form_value r "refresh_token" <> "" /\
  (now <= add64 (ot_refresh_expires old) (ot_created old))%Z /\
  ai_client info = c_id c /\ has_word (ai_scope info) "offline_access".

Definition refresh_found (r : request) (old : oauthtoken) (info : authinfo) : list event :=
  [Ev (OFindByRefresh (form_value r "refresh_token")) (Some old, None);
   Ev (OFindActiveInfo (ot_auth_id old)) (Some info, None)].

Definition refresh_success (r : request) (c : client) (now : Z) (dc : list event) (rs : response)
  : Prop :=
  exists old info tok,
    refresh_checks r c now old info /\
    dc = (refresh_found r old info ++ [Ev (ORefresh info old) (Some tok, None)])%list /\
    rs = Response (ot_access tok) (ot_access_expires tok) (ot_refresh tok) (ai_scope info) "".

(** ** Assertions *)

Definition hdr (t : jtoken) (k : string) : string :=
  match jstr k (jt_header t) with Some s => s | None => "" end.

(** [raw] is a token signed with a key that [c] has published for its alg and kid. *)
Definition verified (J : jwtlib) (raw : string) (c : client) (t : jtoken) : Prop :=
  jl_parse J raw = PToken t /\
  exists k, c_assertion_key c (hdr t "alg") (hdr t "kid") = Some k /\ jl_verify J raw k = true.

(** The JWT library finds no fault with the times in the claims at [now]. *)
Definition current (J : jwtlib) (now : Z) (t : jtoken) : Prop :=
  jl_claims J now (jt_claims t) = CFlags false false false.

(** An integer claim. *)
Definition claim_int (t : jtoken) (k : string) : option Z :=
  match jget k (jt_claims t) with
  | Some (JNumber (Some z)) => Some z
  | Some (JFloat z) => Some z
  | _ => None
  end.
Definition claim_iat (t : jtoken) : Z :=
  match claim_int t "iat" with Some z => z | None => (-1)%Z end.
Definition claim_jti (t : jtoken) : string :=
  match jstr "jti" (jt_claims t) with Some s => s | None => "" end.

(** The calls made while [raw] is accepted as an assertion of [c]. *)
Definition accepted (J : jwtlib) (raw : string) (c : client) (t : jtoken) (evs : list event) : Prop :=
  exists now exp iss,
    verified J raw c t /\ current J now t /\
    claim_int t "exp" = Some exp /\
    jstr "aud" (jt_claims t) = Some iss /\ iss <> "" /\
    evs = [Ev OJwtNow now; Ev (ORecord (c_id c) (claim_jti t) (claim_iat t) exp) None;
           Ev OIssuer iss].

(** ** The direct grants *)

Definition direct_checks (r : request) (c : client) : Prop :=
  form_value r "scope" = "" \/ c_can_scope c FDirectGrant (form_value r "scope") = true.

(** What a direct grant did after identifying user [uid]. *)
Definition direct_calls (r : request) (c : client) (uid : Z) (info : authinfo) (tok : oauthtoken)
  : list event :=
  [Ev (OCreateInfo uid (c_id c) (form_value r "scope")) (Some info, None);
   Ev (OCreateToken (Some info) true) (Some tok, None)].

Definition direct_response (info : authinfo) (tok : oauthtoken) : response :=
  Response (ot_access tok) (ot_access_expires tok) (ot_refresh tok) (ai_scope info) "".

(** [ident h uid]: the calls [h] identify the user [uid]. *)
Definition direct_success (r : request) (c : client) (ident : list event -> Z -> Prop)
  (cs : list event) (rs : response) : Prop :=
  exists h0 uid info tok, ident h0 uid /\ direct_checks r c /\
    cs = (h0 ++ direct_calls r c uid info tok)%list /\ rs = direct_response info tok.

Definition password_ident (r : request) (h : list event) (uid : Z) : Prop :=
  form_value r "username" <> "" /\ form_value r "password" <> "" /\
  h = [Ev (OFindUser (form_value r "username") (form_value r "password")) (uid, None)].

Definition client_ident (c : client) (h : list event) (uid : Z) : Prop :=
  h = [] /\ uid = c_owner c /\ (0 <= uid)%Z.

Definition jwt_ident (J : jwtlib) (r : request) (c : client) (h : list event) (uid : Z) : Prop :=
  exists t evs sub,
    form_value r "assertion" <> "" /\
    accepted J (form_value r "assertion") c t evs /\
    jstr "sub" (jt_claims t) = Some sub /\
    h = (evs ++ [Ev (OFindUserBySub sub) (uid, None)])%list.

(** ** The endpoint *)

(** The headers of every answer of the token endpoint. *)
Definition no_cache_headers : kvs :=
  [("Cache-Control", "no-store"); ("Pragma", "no-cache");
   ("Content-Type", "application/json; charset=UTF-8")].
Definition basic_challenge (realm : string) : string * string :=
  ("WWW-Authenticate", "Basic realm=" ++ String dquote (realm ++ String dquote "")).

(** The error URI is added when one is configured and the error has none. *)
Definition error_uri (u : option (oerr_type -> string)) (e e' : oauth_error) : Prop :=
  oe_type e' = oe_type e /\ oe_desc e' = oe_desc e /\
  match u with
  | None => oe_uri e' = oe_uri e
  | Some f => (oe_uri e <> "" /\ oe_uri e' = oe_uri e) \/ (oe_uri e = "" /\ oe_uri e' = f (oe_type e))
  end.

(** An error answer; 401 comes with a challenge. *)
Definition error_answer (te : token_endpoint) (st : Z) (e : oauth_error) (o : list op) : Prop :=
  exists e', error_uri (te_uri te) e e' /\
  o = answer ((if Z.eqb st 401 then [basic_challenge (te_realm te)] else []) ++ no_cache_headers)%list
             st (oerr_json e').

Definition success_answer (rs : response) : list op := answer no_cache_headers 200 (response_json rs).

(** [gt] was last registered with handler [h] ([te_handlers] lists the
    registrations, the last one first). *)
Definition registered (te : token_endpoint) (gt : string) (h : handler) : Prop :=
  exists later earlier, te_handlers te = (later ++ (gt, h) :: earlier)%list /\
    ~ In gt (map fst later).

(** Credentials the endpoint accepts from a request: (id, secret, in header). *)
Inductive presented (te : token_endpoint) (r : request) : string -> string -> bool -> Prop :=
| pr_header cid sec : basic_auth r = Some (cid, sec) -> presented te r cid sec true
| pr_post cid sec :
    basic_auth r = None -> te_accept te = FromHeaderAndPostBody ->
    post_form_value r "client_id" = cid -> post_form_value r "client_secret" = sec ->
    cid <> "" -> sec <> "" -> presented te r cid sec false
| pr_all cid sec :
    basic_auth r = None -> te_accept te = FromAll ->
    form_value r "client_id" = cid -> form_value r "client_secret" = sec ->
    cid <> "" -> sec <> "" -> presented te r cid sec false.

(** A client assertion the endpoint looks at. *)
Definition presented_assertion (te : token_endpoint) (r : request) (ca : string) : Prop :=
  te_accept_assertion te = true /\ (forall cid sec b, ~ presented te r cid sec b) /\
  form_value r "client_assertion" = ca /\ ca <> "" /\
  form_value r "client_assertion_type" = "urn:ietf:params:oauth:client-assertion-type:jwt-bearer".

(** The events by which client [c] was authenticated. *)
Inductive authenticated (J : jwtlib) (te : token_endpoint) (r : request) (c : client)
  : list event -> Prop :=
| auth_secret cid sec b :
    presented te r cid sec b -> c_match_secret c sec = true ->
    authenticated J te r c [Ev (OFindClient cid) (Some c, None)]
| auth_assertion ca t sub evs :
    presented_assertion te r ca ->
    jstr "sub" (jt_claims t) = Some sub ->
    accepted J ca c t evs ->
    authenticated J te r c (Ev (OFindClient sub) (Some c, None) :: evs).

(** ** Logging *)

(** Names of data-layer methods as they appear in log attributes. *)
Definition logged_methods : list string :=
  ["FindAuthSessionByCode"; "FindActiveAuthInfoById"; "CreateOAuthToken"; "DisableSession";
   "DisableCode"; "FindAccessTokenByRefreshToken"; "RefreshAccessToken"; "CreateOrUpdateAuthInfo";
   "FindUserId"; "OwnerUserId"; "FindUserIdBySubject"; "RecordAssertionClaims"; "Issure"].

(** Names of request parameters and claims. *)
Definition logged_params : list string :=
  ["redirect_uri"; "code"; "code_challenge_method"; "code_challenge"; "refresh_token"; "username";
   "password"; "assertion"; "exp"; "aud"; "sub"].

(** Where the value of an attribute logged by a grant may come from. *)
Definition log_source (J : jwtlib) (r : request) (c : client) (k v : string) : Prop :=
  (k = "client_id" /\ v = c_id c) \/ (k = "param" /\ In v logged_params) \/
  (k = "method" /\ In v logged_methods) \/
  (In k ["code"; "code_challenge"; "code_challenge_method"; "refresh_token"; "username"; "password";
         "scope"; "assertion"] /\ v = form_value r k) \/
  (exists t, jl_parse J (form_value r "assertion") = PToken t /\
     ((k = "subject" /\ jstr "sub" (jt_claims t) = Some v) \/ (k = "jti" /\ v = claim_jti t) \/
      (k = "iat" /\ v = itoa (claim_iat t)) \/
      (exists z, k = "exp" /\ claim_int t "exp" = Some z /\ v = itoa z))).

(** The same for the endpoint around the grants; [h] is the run so far. *)
Definition endpoint_log_source (J : jwtlib) (te : token_endpoint) (r : request) (h : list event)
  (k v : string) : Prop :=
  (k = "http_method" /\ v = r_method r) \/ (k = "grant_type" /\ v = form_value r "grant_type") \/
  (k = "param" /\ v = "grant_type") \/ (k = "method" /\ (v = "FindClientById" \/ v = "AssertionKey")) \/
  (k = "remote_addr" /\ v = header_get r "REMOTE_ADDR") \/
  (k = "x-forwarded-for" /\ v = header_get r "X-FORWARDED-FOR") \/
  (k = "client_id" /\ exists sec b, presented te r v sec b) \/
  (k = "assertion" /\ v = form_value r "client_assertion") \/
  (exists t, jl_parse J (form_value r "client_assertion") = PToken t /\
     ((k = "client_id" /\ jstr "sub" (jt_claims t) = Some v) \/ (k = "jti" /\ v = claim_jti t) \/
      (k = "iat" /\ v = itoa (claim_iat t)) \/
      (exists z, k = "exp" /\ claim_int t "exp" = Some z /\ v = itoa z))) \/
  (exists cid c e, In (Ev (OFindClient cid) (Some c, e)) h /\ log_source J r c k v).

(** [r] and [r'] differ at most in the client secret: in the Authorization header
    and in the form value client_secret. *)
Definition same_but_secret (r r' : request) : Prop :=
  r_method r = r_method r' /\
  (forall k, k <> "client_secret" -> form_value r k = form_value r' k) /\
  (forall k, canon k <> "Authorization" -> header_get r k = header_get r' k).

(** The five grants goidc implements. *)
Inductive bundled (J : jwtlib) : handler -> Prop :=
| b_code : bundled J (authorization_code J)
| b_refresh : bundled J refresh_token
| b_password : bundled J password_grant
| b_client : bundled J client_credentials
| b_jwt : bundled J (jwt_grant J).

Definition only_bundled (J : jwtlib) (te : token_endpoint) : Prop :=
  forall gt h, In (gt, h) (te_handlers te) -> bundled J h.

(** The run [tr] authenticated client [c], read the clock as [now], ran a grant
    with events [th] and then gave the successful answer [rs]. *)
Definition served (J : jwtlib) (te : token_endpoint) (r : request) (tr : list event)
  (c : client) (now : Z) (th : list event) (rs : response) : Prop :=
  exists ta l, authenticated J te r c ta /\ tr = (ta ++ Ev ONow now :: th ++ l)%list /\
    http_ops (ta ++ Ev ONow now :: th) = [] /\ data_calls l = [] /\
    http_ops l = success_answer rs.

(** After [t1] the run has authenticated client [c], read the clock as [now] and
    has since performed [th] on behalf of a grant. *)
Definition serving (J : jwtlib) (te : token_endpoint) (r : request) (t1 : list event)
  (c : client) (now : Z) (th : list event) : Prop :=
  exists ta, authenticated J te r c ta /\ t1 = (ta ++ Ev ONow now :: th)%list.

(** Operations that hand out, look up or change grants: everything a token
    request can do with the data layer except finding a client, recording the
    claims of an assertion and asking for the issuer name. *)
Definition grant_op (o : op) : bool :=
  match o with
  | OFindClient _ | ORecord _ _ _ _ | OIssuer => false
  | o => is_data o
  end.
