(** * Vocabulary of the statements about histories, schedules and crashes.

    These definitions model no code of /repo. *)
From Verif Require Import Core World Spec TokenSpec Grants TokenEndpoint AuthzResponse AuthzEndpoint AuthzSpec ResourceProtector.

(** ** What a data layer promises about authorization codes

    [ok] is an invariant of the data layer's states; [live s code]: a session is
    stored under [code] and not disabled. *)
Definition stores (code : string) (o : op) : bool :=
  match o with
  | OCreateSession _ x => String.eqb (s_code x) code
  | _ => false
  end.

Record code_store {S} (W : rworld S) (ok : S -> Prop) (live : S -> string -> bool) : Prop := CodeStore {
  (* the invariant is kept *)
  law_ok : forall s o a s', ok s -> W s o a s' -> ok s';
  (* FindAuthSessionByCode finds sessions that are stored and not disabled *)
  law_find : forall s code x s', ok s -> W s (OFindSession code) (Some x, None) s' ->
    live s code = true /\ as_code x = code;
  (* after a successful DisableSession the session is disabled *)
  law_disable : forall s x s', ok s -> W s (ODisable x) None s' -> live s' (as_code x) = false;
  (* a code becomes redeemable by storing a session under it, in no other way *)
  law_store : forall s o a s' code, ok s -> W s o a s' -> live s code = false -> live s' code = true ->
    stores code o = true }.

(** DisableSession succeeds only for a session that is not disabled. *)
Definition strict_disable {S} (W : rworld S) (ok : S -> Prop) (live : S -> string -> bool) : Prop :=
  forall s x s', ok s -> W s (ODisable x) None s' -> live s (as_code x) = true.

(** A code stops being redeemable by DisableSession, in no other way. *)
Definition durable {S} (W : rworld S) (ok : S -> Prop) (live : S -> string -> bool) : Prop :=
  forall s o a s' code, ok s -> W s o a s' -> live s code = true -> live s' code = false ->
    exists x, o = ODisable x /\ as_code x = code.

(** How often sessions were stored under [code]. *)
Definition stored_times (code : string) (tr : list event) : nat :=
  length (filter (fun e => stores code (ev_op e)) tr).

(** ** Successful exchanges *)

(** [p] is a token request that presents [code] to the authorization_code grant. *)
Definition presents (p : prog unit) (code : string) : Prop :=
  exists J te r, p = token_handler J te r /\ only_bundled J te /\
    registered te (form_value r "grant_type") (authorization_code J) /\ form_value r "code" = code.

(** It was answered with success. *)
Definition redeemed (p : prog unit) (past : list event) (code : string) : Prop :=
  presents p code /\ In 200%Z (statuses past).

(** ** Sequential histories

    Any programs, one after the other; each may be cut off at any point (a
    crash), with everything it did up to there persistent. *)
Inductive history {S} (W : rworld S) : S -> list (prog unit * list event) -> S -> Prop :=
| hist_nil s : history W s [] s
| hist_cons s p tr p' s1 l s2 :
    rsteps W s p tr p' s1 -> history W s1 l s2 -> history W s ((p, tr) :: l) s2.

(** Everything a pool of threads has done. *)
Definition all_events {A} (ths : list (thread A)) : list event := flat_map th_past ths.

(** ** The entry points of goidc *)

Definition done {A} (p : prog A) : prog unit := bind p (fun _ => Ret tt).
Inductive goidc : prog unit -> Prop :=
| g_token J te r : only_bundled J te -> goidc (token_handler J te r)
| g_authorize E pol r : goidc (done (handle_request E pol r))
| g_complete E pol : goidc (done (complete_request E pol))
| g_cancel E : goidc (done (cancel_request E))
| g_resource rp r : goidc (done (validate rp r))
| g_resource_scopes rp r m : goidc (done (validate_with_scopes rp r m)).

(** ** What a data layer promises about sessions and authorizations

    [sess s code]: the session stored under [code]; [auth s id]: the authorization
    with this id.  An authorization stays with its user and its client. *)
Definition same_grant (a b : authinfo) : Prop := ai_client a = ai_client b /\ ai_user a = ai_user b.

Record linked_store {S} (W : rworld S) (ok : S -> Prop) (sess : S -> string -> option authsession)
  (auth : S -> Z -> option authinfo) : Prop := LinkedStore {
  ll_ok : forall s o a s', ok s -> W s o a s' -> ok s';
  ll_find : forall s code x s', ok s -> W s (OFindSession code) (Some x, None) s' -> sess s code = Some x;
  ll_stored : forall s o a s' code x, ok s -> W s o a s' -> sess s' code = Some x ->
    sess s code = Some x \/
    exists i y, Ev o a = Ev (OCreateSession (Some i) y) None /\ s_code y = code /\
      as_auth_id x = ai_id i /\ as_redirect x = s_redirect y /\ as_verifier x = s_verifier y;
  ll_active : forall s id i s', ok s -> W s (OFindActiveInfo id) (Some i, None) s' ->
    auth s id = Some i /\ ai_id i = id;
  ll_info : forall s uid cid i s', ok s -> W s (OFindInfo uid cid) (Some i, None) s' ->
    auth s (ai_id i) = Some i /\ ai_user i = uid /\ ai_client i = cid;
  ll_create : forall s uid cid scope i s', ok s -> W s (OCreateInfo uid cid scope) (Some i, None) s' ->
    auth s' (ai_id i) = Some i /\ ai_user i = uid /\ ai_client i = cid;
  ll_auth : forall s o a s' id i, ok s -> W s o a s' -> auth s id = Some i ->
    exists i', auth s' id = Some i' /\ same_grant i i' }.

(** [p], having done [past], stored the session that request [r] of client [c]
    redeems for [info]: for an authorization request [q] of the same client and
    redirect URI, which the same user agreed to. *)
Definition traced (r : request) (c : client) (info : authinfo) (p : prog unit) (past : list event) : Prop :=
  exists pol q i y,
    In (Ev (OCreateSession (Some i) y) None) past /\ s_code y = form_value r "code" /\
    rq_client q = c_id c /\ rq_redirect q = form_value r "redirect_uri" /\ pkce_passed r (rq_verifier q) /\
    In (Ev OLoginUser (Some (ai_user info))) past /\
    ((exists E, p = done (complete_request E pol) /\ In (Ev OContinue (Some (Some q))) past /\
        In (Ev (OCreateInfo (ai_user info) (rq_client q) (rq_scope q)) (Some i, None)) past)
     \/ (exists E r' c', p = done (handle_request E pol r') /\ approved r' c' past /\ validated pol r' c' q /\
           consent_on_record pol q i past)).
