(** * The reasons behind the errors of the token endpoint.

    No code is modelled here: each constructor is a fault of the request, or an answer of
    the data layer, with the error and the description that it deserves. *)
From Coq Require Import Permutation.
From Verif Require Import GoStr Codec Sha Core OAuthError Grants TokenEndpoint Spec TokenSpec.

(** In the run [tr] the data layer refused operation [o] ("no such thing"). *)
Definition said_no (tr : list event) (o : op) : Prop :=
  exists a, In (Ev o a) tr /\ data_failure (Ev o a) = Some Refused.
(** It broke down: a server error, an unsupported method, or nil without an error. *)
Definition broke_down (tr : list event) : Prop :=
  exists ev, In ev tr /\ data_failure ev = Some Broken.

Definition missing (k : string) : string := "missing '" ++ k ++ "' parameter".

(** ** Assertions: what is wrong with the assertion [raw] of client [c]. *)
Inductive assertion_fault (J : jwtlib) (raw : string) (c : client) (tr : list event)
  : oerr_type -> string -> Prop :=
| af_format : jl_parse J raw = PMalformed ->
    assertion_fault J raw c tr EInvalidGrant "invalid assertion format"
| af_algorithm : jl_parse J raw = PNoAlg ->
    assertion_fault J raw c tr EInvalidGrant "assertion unverifiable"
| af_key t : jl_parse J raw = PToken t -> c_assertion_key c (hdr t "alg") (hdr t "kid") = None ->
    assertion_fault J raw c tr EInvalidGrant "assertion unverifiable"
| af_signature t k :
    jl_parse J raw = PToken t -> c_assertion_key c (hdr t "alg") (hdr t "kid") = Some k ->
    jl_verify J raw k = false ->
    assertion_fault J raw c tr EInvalidClient "invalid assertion signature"
| af_expired t now :
    verified J raw c t -> In (Ev OJwtNow now) tr -> cf_expired (jl_claims J now (jt_claims t)) = true ->
    assertion_fault J raw c tr EInvalidGrant "assertion expired"
| af_early t now :
    verified J raw c t -> In (Ev OJwtNow now) tr -> cf_nbf (jl_claims J now (jt_claims t)) = true ->
    assertion_fault J raw c tr EInvalidGrant "assertion not valid yet"
| af_issued t now :
    verified J raw c t -> In (Ev OJwtNow now) tr -> cf_iat (jl_claims J now (jt_claims t)) = true ->
    assertion_fault J raw c tr EInvalidGrant "invalid assertion"
| af_no_exp t :
    verified J raw c t -> claim_int t "exp" = None ->
    assertion_fault J raw c tr EInvalidRequest "'exp' parameter not found in assertion"
| af_replayed t exp :
    verified J raw c t -> claim_int t "exp" = Some exp ->
    said_no tr (ORecord (c_id c) (claim_jti t) (claim_iat t) exp) ->
    assertion_fault J raw c tr EInvalidRequest ""
| af_no_aud t :
    verified J raw c t -> jstr "aud" (jt_claims t) = None ->
    assertion_fault J raw c tr EInvalidRequest "'aud' parameter not found in assertion"
| af_audience t aud iss :
    verified J raw c t -> jstr "aud" (jt_claims t) = Some aud -> In (Ev OIssuer iss) tr -> aud <> iss ->
    assertion_fault J raw c tr EInvalidGrant ("invalid 'aud' parameter '" ++ aud ++ "' in assertion")
| af_no_issuer :
    In (Ev OIssuer "") tr -> assertion_fault J raw c tr EServerError ""
| af_broken : broke_down tr -> assertion_fault J raw c tr EServerError "".

(** ** The grants: what is wrong with the request [r] of the authenticated client [c]. *)

Inductive code_fault (J : jwtlib) (r : request) (c : client) (now : Z) (tr : list event)
  : oerr_type -> string -> Prop :=
| cd_missing k : In k ["redirect_uri"; "code"] -> form_value r k = "" ->
    code_fault J r c now tr EInvalidRequest (missing k)
| cd_unknown : said_no tr (OFindSession (form_value r "code")) ->
    code_fault J r c now tr EInvalidGrant ""
| cd_inactive sess :
    In (Ev (OFindSession (form_value r "code")) (Some sess, None)) tr ->
    said_no tr (OFindActiveInfo (as_auth_id sess)) ->
    code_fault J r c now tr EInvalidGrant ""
| cd_other_client sess info :
    incl (found_calls r sess info) tr -> ai_client info <> c_id c ->
    code_fault J r c now tr EInvalidGrant ""
| cd_redirect sess :
    In (Ev (OFindSession (form_value r "code")) (Some sess, None)) tr ->
    as_redirect sess <> form_value r "redirect_uri" ->
    code_fault J r c now tr EInvalidGrant
      ("indicated 'redirect_uri' (" ++ form_value r "redirect_uri" ++ ") is not allowed for this client")
| cd_no_pkce sess k :
    In (Ev (OFindSession (form_value r "code")) (Some sess, None)) tr -> as_verifier sess <> "" ->
    In k ["code_challenge_method"; "code_challenge"] -> form_value r k = "" ->
    code_fault J r c now tr EInvalidRequest (missing k)
| cd_pkce_method sess :
    In (Ev (OFindSession (form_value r "code")) (Some sess, None)) tr -> as_verifier sess <> "" ->
    ~ In (form_value r "code_challenge_method") [""; "plain"; "S256"] ->
    code_fault J r c now tr EInvalidRequest
      ("unsupported 'code_challenge_method': '" ++ form_value r "code_challenge_method" ++ "'")
| cd_pkce sess :
    In (Ev (OFindSession (form_value r "code")) (Some sess, None)) tr -> as_verifier sess <> "" ->
    In (form_value r "code_challenge_method") ["plain"; "S256"] -> form_value r "code_challenge" <> "" ->
    ~ rfc7636 (form_value r "code_challenge_method") (form_value r "code_challenge") (as_verifier sess) ->
    code_fault J r c now tr EInvalidGrant ("invalid 'code_challenge': '" ++ form_value r "code_challenge" ++ "'")
| cd_create sess info :
    incl (found_calls r sess info) tr -> said_no tr (OCreateToken (Some info) true) ->
    code_fault J r c now tr EInvalidGrant ""
| cd_disable sess :
    In (Ev (OFindSession (form_value r "code")) (Some sess, None)) tr -> said_no tr (ODisable sess) ->
    code_fault J r c now tr EInvalidGrant ""
| cd_unsignable sess info iss cs :
    incl (found_calls r sess info) tr -> has_word (ai_scope info) "openid" -> In (Ev OIssuer iss) tr ->
    id_claims cs iss (ai_client info) (ai_subject info) (as_nonce sess)
      (add64 now (as_idt_expires sess)) (as_auth_time sess) now None None ->
    (forall tok, ~ signed_for J c cs tok) ->
    code_fault J r c now tr EServerError ""
| cd_broken : broke_down tr -> code_fault J r c now tr EServerError "".

Inductive refresh_fault (r : request) (c : client) (now : Z) (tr : list event)
  : oerr_type -> string -> Prop :=
| rf_missing : form_value r "refresh_token" = "" ->
    refresh_fault r c now tr EInvalidRequest (missing "refresh_token")
| rf_unknown : said_no tr (OFindByRefresh (form_value r "refresh_token")) ->
    refresh_fault r c now tr EInvalidGrant ""
| rf_expired old :
    In (Ev (OFindByRefresh (form_value r "refresh_token")) (Some old, None)) tr ->
    (add64 (ot_refresh_expires old) (ot_created old) < now)%Z ->
    refresh_fault r c now tr EInvalidGrant "expired 'refresh_token'"
| rf_inactive old :
    In (Ev (OFindByRefresh (form_value r "refresh_token")) (Some old, None)) tr ->
    said_no tr (OFindActiveInfo (ot_auth_id old)) ->
    refresh_fault r c now tr EInvalidGrant ""
| rf_other_client old info :
    incl (refresh_found r old info) tr -> ai_client info <> c_id c ->
    refresh_fault r c now tr EInvalidGrant ""
| rf_not_offline old info :
    incl (refresh_found r old info) tr -> ~ has_word (ai_scope info) "offline_access" ->
    refresh_fault r c now tr EInvalidGrant ""
| rf_refresh old info :
    incl (refresh_found r old info) tr -> said_no tr (ORefresh info old) ->
    refresh_fault r c now tr EInvalidGrant ""
| rf_broken : broke_down tr -> refresh_fault r c now tr EServerError "".

(** The three direct grants, once the user [uid] is identified. *)
Inductive direct_fault (r : request) (c : client) (tr : list event) (uid : Z)
  : oerr_type -> string -> Prop :=
| df_scope : form_value r "scope" <> "" -> c_can_scope c FDirectGrant (form_value r "scope") = false ->
    direct_fault r c tr uid EInvalidScope ""
| df_info : said_no tr (OCreateInfo uid (c_id c) (form_value r "scope")) ->
    direct_fault r c tr uid EInvalidGrant ""
| df_create info :
    In (Ev (OCreateInfo uid (c_id c) (form_value r "scope")) (Some info, None)) tr ->
    said_no tr (OCreateToken (Some info) true) ->
    direct_fault r c tr uid EInvalidGrant ""
| df_broken : broke_down tr -> direct_fault r c tr uid EServerError "".

Inductive password_fault (r : request) (c : client) (tr : list event) : oerr_type -> string -> Prop :=
| pf_missing k : In k ["username"; "password"] -> form_value r k = "" ->
    password_fault r c tr EInvalidRequest (missing k)
| pf_scope : form_value r "scope" <> "" -> c_can_scope c FDirectGrant (form_value r "scope") = false ->
    password_fault r c tr EInvalidScope ""
| pf_user : said_no tr (OFindUser (form_value r "username") (form_value r "password")) ->
    password_fault r c tr EInvalidGrant ""
| pf_direct uid t d :
    In (Ev (OFindUser (form_value r "username") (form_value r "password")) (uid, None)) tr ->
    direct_fault r c tr uid t d -> password_fault r c tr t d
| pf_broken : broke_down tr -> password_fault r c tr EServerError "".

Inductive client_fault (r : request) (c : client) (tr : list event) : oerr_type -> string -> Prop :=
| kf_owner : (c_owner c < 0)%Z -> client_fault r c tr EInvalidGrant ""
| kf_direct t d : direct_fault r c tr (c_owner c) t d -> client_fault r c tr t d.

Inductive jwt_fault (J : jwtlib) (r : request) (c : client) (tr : list event) : oerr_type -> string -> Prop :=
| jf_missing : form_value r "assertion" = "" -> jwt_fault J r c tr EInvalidRequest (missing "assertion")
| jf_assertion t d : assertion_fault J (form_value r "assertion") c tr t d -> jwt_fault J r c tr t d
| jf_no_sub t :
    verified J (form_value r "assertion") c t -> jstr "sub" (jt_claims t) = None ->
    jwt_fault J r c tr EInvalidRequest "'sub' parameter not found"
| jf_user t sub :
    verified J (form_value r "assertion") c t -> jstr "sub" (jt_claims t) = Some sub ->
    said_no tr (OFindUserBySub sub) ->
    jwt_fault J r c tr EInvalidGrant ("invalid 'sub' parameter '" ++ sub ++ "' in assertion")
| jf_direct uid sub t d :
    In (Ev (OFindUserBySub sub) (uid, None)) tr -> direct_fault r c tr uid t d -> jwt_fault J r c tr t d.

Inductive grant_fault (J : jwtlib) (r : request) (c : client) (now : Z) (tr : list event) : handler -> oerr_type -> string -> Prop :=
| gf_code t d : code_fault J r c now tr t d -> grant_fault J r c now tr (authorization_code J) t d
| gf_refresh t d : refresh_fault r c now tr t d -> grant_fault J r c now tr refresh_token t d
| gf_password t d : password_fault r c tr t d -> grant_fault J r c now tr password_grant t d
| gf_client t d : client_fault r c tr t d -> grant_fault J r c now tr client_credentials t d
| gf_jwt t d : jwt_fault J r c tr t d -> grant_fault J r c now tr (jwt_grant J) t d.

(** ** Client authentication by assertion. *)
Inductive client_assertion_fault (J : jwtlib) (raw : string) (tr : list event) : oerr_type -> string -> Prop :=
| xf_algorithm : jl_parse J raw = PNoAlg ->
    client_assertion_fault J raw tr EInvalidGrant "assertion unverifiable"
| xf_no_sub t : jl_parse J raw = PToken t -> jstr "sub" (jt_claims t) = None ->
    client_assertion_fault J raw tr EInvalidRequest "'sub' parameter not found in assertion"
| xf_unknown t sub : jl_parse J raw = PToken t -> jstr "sub" (jt_claims t) = Some sub ->
    said_no tr (OFindClient sub) ->
    client_assertion_fault J raw tr EInvalidClient ""
| xf_fault t sub c e d : jl_parse J raw = PToken t -> jstr "sub" (jt_claims t) = Some sub ->
    In (Ev (OFindClient sub) (Some c, None)) tr ->
    assertion_fault J raw c tr e d ->
    client_assertion_fault J raw tr e d
| xf_broken : broke_down tr -> client_assertion_fault J raw tr EServerError "".

(** ** The endpoint: why the status [st] with the error and its description. *)
Inductive reason (J : jwtlib) (te : token_endpoint) (r : request) (tr : list event)
  : Z -> oerr_type -> string -> Prop :=
| why_missing : form_value r "grant_type" = "" ->
    reason J te r tr 400 EInvalidRequest (missing "grant_type")
| why_unsupported :
    form_value r "grant_type" <> "" -> (forall h, ~ registered te (form_value r "grant_type") h) ->
    reason J te r tr 400 EUnsupportedGrantType
      ("unsupported 'grant_type' parameter: '" ++ form_value r "grant_type" ++ "'")
| why_no_credentials :
    (forall cid sec b, ~ presented te r cid sec b) -> (forall ca, ~ presented_assertion te r ca) ->
    reason J te r tr 401 EInvalidClient ""
| why_unknown_client cid sec b :
    presented te r cid sec b -> said_no tr (OFindClient cid) ->
    reason J te r tr (if b then 401 else 400) EInvalidClient ""
| why_wrong_secret cid sec b c :
    presented te r cid sec b -> In (Ev (OFindClient cid) (Some c, None)) tr -> c_match_secret c sec = false ->
    reason J te r tr (if b then 401 else 400) EInvalidClient ""
| why_not_allowed cid sec b c :
    presented te r cid sec b -> In (Ev (OFindClient cid) (Some c, None)) tr -> c_match_secret c sec = true ->
    c_can_grant c (form_value r "grant_type") = false ->
    reason J te r tr 400 EUnauthorizedClient ""
| why_assertion ca ta rest e d :
    presented_assertion te r ca ->
    tr = (ta ++ rest)%list -> (forall now, ~ In (Ev ONow now) ta) ->    (* before a grant was tried *)
    client_assertion_fault J ca ta e d ->
    reason J te r tr (oerr_status e) e d
| why_grant ta th rest h c now e d :
    authenticated J te r c ta -> registered te (form_value r "grant_type") h ->
    tr = (ta ++ Ev ONow now :: th ++ rest)%list ->
    grant_fault J r c now th h e d ->
    reason J te r tr (oerr_status e) e d
| why_broken : broke_down tr -> reason J te r tr 500 EServerError "".

(** The library marshals a map of claims: the order they were put in does not matter. *)
Definition unordered (J : jwtlib) : Prop := forall alg kid cs cs' k,
  NoDup (map fst cs) -> Permutation cs cs' -> jl_sign J alg kid cs k = jl_sign J alg kid cs' k.
