(** * Vocabulary: authorizations that were withdrawn.

    These definitions model no code of /repo. *)
From Verif Require Import Core World Spec TokenSpec Grants TokenEndpoint AuthzSpec SysSpec TraceSpec WorkSpec.

(** What a data layer promises about withdrawn authorizations.  [gone s id]: the
    authorization with this id has been withdrawn. *)
Record revoking_store {S} (W : rworld S) (ok : S -> Prop) (gone : S -> Z -> Prop) : Prop := RevokingStore {
  rv_ok : forall s o a s', ok s -> W s o a s' -> ok s';
  (* FindActiveAuthInfoById finds the authorization with that id, if it is not withdrawn *)
  rv_active : forall s id i s', ok s -> W s (OFindActiveInfo id) (Some i, None) s' -> ai_id i = id /\ ~ gone s id;
  (* a withdrawn authorization says that it is not active *)
  rv_found : forall s uid cid i s', ok s -> W s (OFindInfo uid cid) (Some i, None) s' -> gone s (ai_id i) -> ai_active i = false;
  (* it stays withdrawn until CreateOrUpdateAuthInfo returns it *)
  rv_kept : forall s o a s' id, ok s -> W s o a s' -> gone s id ->
    gone s' id \/ exists uid cid scope i, Ev o a = Ev (OCreateInfo uid cid scope) (Some i, None) /\ ai_id i = id }.

(** CreateOrUpdateAuthInfo returned the authorization between the two moments. *)
Definition revived (ths1 ths2 : list (thread unit)) (id : Z) : Prop :=
  exists uid cid scope i, since ths1 ths2 (Ev (OCreateInfo uid cid scope) (Some i, None)) /\ ai_id i = id.

(** The run [past] asked the data layer for a token or a code under the
    authorization, or to refresh a token under it. *)
Inductive acted_under (id : Z) (past : list event) : Prop :=
| au_token i b a : In (Ev (OCreateToken (Some i) b) a) past -> ai_id i = id -> acted_under id past
| au_code i y a : In (Ev (OCreateSession (Some i) y) a) past -> ai_id i = id -> acted_under id past
| au_refresh i k a : In (Ev (ORefresh i k) a) past -> ai_id i = id -> acted_under id past.

(** The run [past] of [p] gave the client what it wanted for something that belongs
    to the authorization: a protected resource for an access token, a token for a code
    or for a refresh token. *)
Inductive served_under (id : Z) (p : prog unit) (past : list event) : Prop :=
| su_access r r' t k : let_through p past r r' -> In (Ev (OFindByAccess t) (Some k, None)) past -> ot_auth_id k = id ->
    served_under id p past
| su_code code x : redeemed p past code -> In (Ev (OFindSession code) (Some x, None)) past -> as_auth_id x = id ->
    served_under id p past
| su_refresh J te r k : p = token_handler J te r -> only_bundled J te ->
    registered te (form_value r "grant_type") refresh_token -> In 200%Z (statuses past) ->
    In (Ev (OFindByRefresh (form_value r "refresh_token")) (Some k, None)) past -> ot_auth_id k = id ->
    served_under id p past.
