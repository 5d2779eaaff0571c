(** * Vocabulary of the statements about where served requests come from.

    These definitions model no code of /repo. *)
From Verif Require Import Core World Spec TokenSpec Grants TokenEndpoint AuthzResponse AuthzEndpoint AuthzSpec
  ResourceProtector ResourceSpec SysSpec.

(** ** What a data layer promises about access tokens

    [tok s t]: the token stored under the access token [t]. *)
Record token_store {S} (W : rworld S) (ok : S -> Prop) (tok : S -> string -> option oauthtoken) : Prop := TokenStore {
  (* tokens that are found are stored *)
  tk_find : forall s t k s', ok s -> W s (OFindByAccess t) (Some k, None) s' -> tok s t = Some k;
  tk_refresh : forall s t k s', ok s -> W s (OFindByRefresh t) (Some k, None) s' -> exists t', tok s t' = Some k;
  (* a token is stored by creating it for an authorization, or by refreshing one: then
     it belongs to the authorization of the call or to that of a token stored before *)
  tk_stored : forall s o a s' t k, ok s -> W s o a s' -> tok s' t = Some k ->
    tok s t = Some k \/
    (exists i b, Ev o a = Ev (OCreateToken (Some i) b) (Some k, None) /\ ot_auth_id k = ai_id i) \/
    (exists i old, o = ORefresh i old /\
       (ot_auth_id k = ai_id i \/ exists t' x, tok s t' = Some x /\ ot_auth_id k = ot_auth_id x)) }.

(** Authorizations appear, and change their scope, by CreateOrUpdateAuthInfo, in no other way. *)
Definition scope_store {S} (W : rworld S) (ok : S -> Prop) (auth : S -> Z -> option authinfo) : Prop :=
  forall s o a s' id i, ok s -> W s o a s' -> auth s' id = Some i ->
    (exists i0, auth s id = Some i0 /\ ai_scope i0 = ai_scope i) \/
    (exists uid cid j, Ev o a = Ev (OCreateInfo uid cid (ai_scope i)) (Some j, None) /\ ai_id j = id).

(** ** Agreement of the user

    [past] begins with the authentication of client [c] by token request [r]. *)
Definition signed_in (J : jwtlib) (te : token_endpoint) (r : request) (c : client) (past : list event) : Prop :=
  exists ta now rest, authenticated J te r c ta /\ past = (ta ++ Ev ONow now :: rest)%list.

(** In run [past] of [p], user [uid] let client [cid] have the scope. *)
Inductive agreed (p : prog unit) (past : list event) (uid : Z) (cid : string) : string -> Prop :=
(* the client knows the user's password *)
| ag_password J te r c :
    p = token_handler J te r -> signed_in J te r c past -> c_id c = cid -> direct_checks r c ->
    form_value r "username" <> "" -> form_value r "password" <> "" ->
    In (Ev (OFindUser (form_value r "username") (form_value r "password")) (uid, None)) past ->
    agreed p past uid cid (form_value r "scope")
(* the user is the owner of the client *)
| ag_owner J te r c :
    p = token_handler J te r -> signed_in J te r c past -> c_id c = cid -> direct_checks r c ->
    c_owner c = uid -> (0 <= uid)%Z ->
    agreed p past uid cid (form_value r "scope")
(* the client vouches for the user in a signed assertion *)
| ag_assertion J te r c t evs sub :
    p = token_handler J te r -> signed_in J te r c past -> c_id c = cid -> direct_checks r c ->
    accepted J (form_value r "assertion") c t evs -> (forall e, In e evs -> In e past) ->
    jstr "sub" (jt_claims t) = Some sub -> In (Ev (OFindUserBySub sub) (uid, None)) past ->
    agreed p past uid cid (form_value r "scope")
(* the user, logged in, completed the client's authorization request *)
| ag_consent E pol q :
    p = done (complete_request E pol) -> In (Ev OContinue (Some (Some q))) past ->
    In (Ev OLoginUser (Some uid)) past -> rq_client q = cid ->
    agreed p past uid cid (rq_scope q).

(** The user, logged in, is on record as having agreed before. *)
Definition on_record (p : prog unit) (past : list event) (uid : Z) (cid : string) : Prop :=
  exists E pol r c q i,
    p = done (handle_request E pol r) /\ approved r c past /\ validated pol r c q /\
    consent_on_record pol q i past /\ In (Ev OLoginUser (Some uid)) past /\ rq_client q = cid.

Definition granted (p : prog unit) (past : list event) (uid : Z) (cid : string) : Prop :=
  (exists scope, agreed p past uid cid scope) \/ on_record p past uid cid.

(** The run [past] of [p] let the protected request [r] through, as [r']. *)
Inductive let_through (p : prog unit) (past : list event) (r r' : request) : Prop :=
| lt_plain rp : p = done (validate rp r) -> exec (validate rp r) past (Done (true, r')) -> let_through p past r r'
| lt_scopes rp m : p = done (validate_with_scopes rp r m) ->
    exec (validate_with_scopes rp r m) past (Done (true, r')) -> let_through p past r r'.
