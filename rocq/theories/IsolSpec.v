(** * Vocabulary: clients do not disturb each other and do not learn of each other.

    These definitions model no code of /repo. *)
From Verif Require Import Core World Spec TokenSpec OAuthError Grants TokenEndpoint AuthzResponse AuthzEndpoint AuthzSpec
  SysSpec TraceSpec.

(** ** Acting for a client

    [p], having done [past], acts for client [cid]: it is a token request that has
    authenticated as the client, the completion of one of the client's
    authorization requests, or such a request itself. *)
Inductive acts_for (cid : string) (p : prog unit) (past : list event) : Prop :=
| af_token J te r c :
    p = token_handler J te r -> signed_in J te r c past -> c_id c = cid -> acts_for cid p past
| af_complete E pol q :
    p = done (complete_request E pol) -> In (Ev OContinue (Some (Some q))) past -> rq_client q = cid ->
    acts_for cid p past
| af_authorize E pol r :
    p = done (handle_request E pol r) -> form_value r "client_id" = cid -> acts_for cid p past.

(** ** What a data layer promises about what belongs to whom

    [sess], [auth] and [tok] as in [linked_store] and [token_store]; [genuine k]: [k] is
    a token as this data layer makes them. *)
Record separate_store {S} (W : rworld S) (ok : S -> Prop) (sess : S -> string -> option authsession)
  (auth : S -> Z -> option authinfo) (tok : S -> string -> option oauthtoken) (genuine : oauthtoken -> Prop) : Prop :=
  SeparateStore {
  (* an authorization is changed by CreateOrUpdateAuthInfo returning it, in no other way *)
  sp_info : forall s o a s' id i, ok s -> W s o a s' -> auth s id = Some i ->
    auth s' id = Some i \/
    exists uid cid scope j, Ev o a = Ev (OCreateInfo uid cid scope) (Some j, None) /\ ai_id j = id;
  (* a token is removed or replaced by creating one for the same authorization, or by
     refreshing a token of the same authorization *)
  sp_token : forall s o a s' t k, ok s -> W s o a s' -> tok s t = Some k ->
    tok s' t = Some k \/
    (exists i b, o = OCreateToken (Some i) b /\ ai_id i = ot_auth_id k) \/
    (exists i old, o = ORefresh i old /\ (genuine old -> ot_auth_id old = ot_auth_id k));
  sp_genuine : forall s t k s', ok s -> W s (OFindByRefresh t) (Some k, None) s' -> genuine k;
  (* a session is removed by DisableSession, or replaced by storing another one under
     the same code *)
  sp_session : forall s o a s' code x, ok s -> W s o a s' -> sess s code = Some x ->
    sess s' code = Some x \/ stores code o = true \/ exists y, o = ODisable y /\ as_code y = code;
  sp_code : forall s code x s', ok s -> W s (OFindSession code) (Some x, None) s' -> as_code x = code }.

(** ** Refusals that say nothing about others

    A run begins by looking up the client that the request names; there is no such
    client, or the secret is not its secret.  [b]: the credentials were in the
    header. *)
Inductive wrong_client (te : token_endpoint) (r : request) (b : bool) (tr : list event) : Prop :=
| wc_unknown cid sec x rest : presented te r cid sec b -> tr = Ev (OFindClient cid) (x, Some ErrFailed) :: rest ->
    wrong_client te r b tr
| wc_secret cid sec c rest : presented te r cid sec b -> tr = Ev (OFindClient cid) (Some c, None) :: rest ->
    c_match_secret c sec = false -> wrong_client te r b tr.

(** [c] presented a code, for which nothing was found, or only a withdrawn
    authorization, or an authorization of another client. *)
Inductive nothing_yours (r : request) (c : client) (tr : list event) : Prop :=
| ny_code x : In (Ev (OFindSession (form_value r "code")) (x, Some ErrFailed)) tr -> nothing_yours r c tr
| ny_withdrawn s x :
    In (Ev (OFindSession (form_value r "code")) (Some s, None)) tr ->
    In (Ev (OFindActiveInfo (as_auth_id s)) (x, Some ErrFailed)) tr -> nothing_yours r c tr
| ny_others s i :
    In (Ev (OFindSession (form_value r "code")) (Some s, None)) tr ->
    In (Ev (OFindActiveInfo (as_auth_id s)) (Some i, None)) tr -> ai_client i <> c_id c -> nothing_yours r c tr.

(** The same for refresh tokens.  (A token that has expired is not looked up any
    further.) *)
Inductive no_refresh (r : request) (c : client) (tr : list event) : Prop :=
| nr_token x : In (Ev (OFindByRefresh (form_value r "refresh_token")) (x, Some ErrFailed)) tr -> no_refresh r c tr
| nr_withdrawn k x :
    In (Ev (OFindByRefresh (form_value r "refresh_token")) (Some k, None)) tr ->
    In (Ev (OFindActiveInfo (ot_auth_id k)) (x, Some ErrFailed)) tr -> no_refresh r c tr
| nr_others k i :
    In (Ev (OFindByRefresh (form_value r "refresh_token")) (Some k, None)) tr ->
    In (Ev (OFindActiveInfo (ot_auth_id k)) (Some i, None)) tr -> ai_client i <> c_id c -> no_refresh r c tr.

(** The whole answer to such a request. *)
Definition bare_refusal (te : token_endpoint) (t : oerr_type) : list op :=
  answer no_cache_headers (oerr_status t) (oerr_json (with_uri (te_uri te) (simple_oerr t))).
