(** * test_helper: the bundled client, and the administration of the bundled store. *)
From Verif Require Import Core Utils World TestStore.

(** test_helper/client.go:9-33 [NewTestClient] and the methods at 39-95: every flow and scope
    is allowed, grant types only when added; the secret is also the key of assertions,
    whatever their algorithm. *)
Definition test_client (owner : Z) (id secret uri alg : string) (k : key) (kid : string) : client :=
  Client id owner alg kid (Some k)
    (fun s => secret =s? s)                      (* 71-73 MatchSecret *)
    (fun _ => true)                              (* 39-41 CanUseFlow *)
    (fun _ => false)                             (* 43-50 CanUseGrantType: an empty map *)
    (fun _ _ => true)                            (* 56-58 CanUseScope *)
    (fun u => uri =s? u)                         (* 52-54 CanUseRedirectURI *)
    (fun _ _ => Some (KBytes secret))            (* 93-95 GetAssertionKey *)
    ForceConsent                                 (* 85-87 *)
    NoneForbidden.                               (* 89-91 *)

(** test_helper/client.go:35-37 [AllowToUseGrantType] *)
Definition allow_grant (gt : string) (c : client) : client :=
  Client (c_id c) (c_owner c) (c_alg c) (c_kid c) (c_key c) (c_match_secret c) (c_can_flow c)
    (fun g => if g =s? gt then true else c_can_grant c g)
    (c_can_scope c) (c_can_redirect c) (c_assertion_key c) (c_no_consent c) (c_none c).

(** test_helper/store.go:20-31: the store with the counter of users.  The RSA key of the store
    (34-51) is [KRsaPriv 0]. *)
Record server := Server { sv_next_user : Z; sv_store : store }.

(** test_helper/store.go:32-62 [NewTestStore] *)
Definition new_server : server := Server 0 (Store 0 [] [] [] [] []).

(** test_helper/store.go:64-69 [CreateNewUser] *)
Definition create_user (name pass : string) (v : server) : server :=
  let s := sv_store v in
  let users := (sv_next_user v, name, pass) :: filter (fun u => negb (fst (fst u) =? sv_next_user v)%Z) (st_users s) in
  Server (sv_next_user v + 1)
    (Store (st_next_info s) users (st_clients s) (st_infos s) (st_sessions s) (st_tokens s)).

Definition set_clients (v : server) (x : list (string * client)) : server :=
  let s := sv_store v in
  Server (sv_next_user v) (Store (st_next_info s) (st_users s) x (st_infos s) (st_sessions s) (st_tokens s)).

(** test_helper/store.go:71-75 [CreateNewClient] *)
Definition create_client (owner : Z) (id secret uri : string) (v : server) : server :=
  set_clients v (aput seqb id (test_client owner id secret uri "RS256" (KRsaPriv 0) "my_service_key_id") (st_clients (sv_store v))).

(** test_helper/client.go:35-37, called on the client found under [id]. *)
Definition allow (id gt : string) (v : server) : server :=
  match sget id (st_clients (sv_store v)) with
  | Some c => set_clients v (aput seqb id (allow_grant gt c) (st_clients (sv_store v)))
  | None => v
  end.

(** test_helper/store.go:118-123 [ClearAuthData] *)
Definition clear_auth_data (v : server) : server :=
  Server (sv_next_user v) (Store 0 (st_users (sv_store v)) (st_clients (sv_store v)) [] [] []).

(** test_helper/store.go:125-130 [ClearAll] *)
Definition clear_all (v : server) : server := new_server.
