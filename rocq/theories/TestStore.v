(** * test_helper/store.go: the in-memory data layer bundled with goidc. *)
From Verif Require Import Core World.

(** Finite maps as association lists: [aget] finds the first entry, [aput]
    replaces, [adel] deletes (Go's map assignment and delete). *)
Section Assoc.
  Context {K V : Type} (eqb : K -> K -> bool).
  Fixpoint aget (k : K) (m : list (K * V)) : option V :=
    match m with
    | [] => None
    | (k', v) :: r => if eqb k k' then Some v else aget k r
    end.
  Definition adel (k : K) (m : list (K * V)) : list (K * V) :=
    filter (fun p => negb (eqb k (fst p))) m.
  Definition aput (k : K) (v : V) (m : list (K * V)) : list (K * V) := (k, v) :: adel k m.
End Assoc.

(** test_helper/store.go:13-31.  Users are (id, username, password).
    Simplification: infos, sessions and tokens are values, not pointers: a
    handler that has fetched one does not see later in-place changes. *)
Record store := Store {
  st_next_info : Z;
  st_users : list (Z * string * string);
  st_clients : list (string * client);
  st_infos : list (Z * authinfo);
  st_sessions : list (string * authsession);
  st_tokens : list (string * oauthtoken) }.

Definition set_infos (s : store) n x := Store n (st_users s) (st_clients s) x (st_sessions s) (st_tokens s).
Definition set_sessions (s : store) x :=
  Store (st_next_info s) (st_users s) (st_clients s) (st_infos s) x (st_tokens s).
Definition set_tokens (s : store) x :=
  Store (st_next_info s) (st_users s) (st_clients s) (st_infos s) (st_sessions s) x.

Definition sget {V} := @aget string V seqb.
Definition zget {V} := @aget Z V Z.eqb.

Definition failed {A} : dres A := (None, Some ErrFailed).

(** test_helper/store.go:77-88 [CreateAuthSession]; the other fields of the
    stored session are those of test_helper/auth_session.go:17-33. *)
Definition stored_session (i : authinfo) (x : asession) : authsession :=
  AuthSession (s_code x) (ai_id i) (s_auth_time x) 604800 (s_redirect x) (s_verifier x)
              (s_expires x) (s_nonce x) (s_auth_time x).

(** test_helper/store.go:109-116 [findAuthInfoByUserAndClient] *)
Definition same_user_client (uid : Z) (cid : string) (p : Z * authinfo) : bool :=
  ((ai_user (snd p) =? uid)%Z && (ai_client (snd p) =s? cid))%bool.

(** test_helper/store.go:198-208 [CreateOAuthToken]: the token for an
    authorization, at times [t1], [t2]. *)
Definition created_token (i : authinfo) (t1 t2 : Z) : oauthtoken :=
  OAuthToken (ai_id i) ("ACCESS_TOKEN_" ++ itoa (ai_id i)) 86400 t1
    (if include_offline (ai_scope i) then "REFRESH_TOKEN_" ++ itoa (ai_id i) else "") 2592000 t2.

(** The store as a world.  [strict]: DisableSession of a session that is not
    stored fails, instead of succeeding as the bundled store's [delete] does
    (test_helper/store.go:193-196).  A refresh of a token that is not stored dereferences nil in Go; here
    it has no transition.  Operations that are not part of the data
    interface (clocks, callbacks, logger, HTTP) get any answer and change
    nothing.  Where Go ranges over a map looking for an entry, any matching entry
    may be found. *)
Inductive sstep (strict : bool) : rworld store :=
| ss_issuer s : sstep strict s OIssuer "http://example.org/" s                        (* 133-135 *)
| ss_find_user s u p id :
    In (id, u, p) (st_users s) -> sstep strict s (OFindUser u p) (id, None) s         (* 137-144 *)
| ss_find_user_no s u p :
    (forall id, ~ In (id, u, p) (st_users s)) ->
    sstep strict s (OFindUser u p) ((-1)%Z, Some ErrFailed) s
| ss_find_client s cid :                                                              (* 146-153 *)
    sstep strict s (OFindClient cid)
      (match sget cid (st_clients s) with Some c => (Some c, None) | None => failed end) s
| ss_find_session s code :                                                            (* 155-162 *)
    sstep strict s (OFindSession code)
      (match sget code (st_sessions s) with Some x => (Some x, None) | None => failed end) s
| ss_find_info s uid cid :                                                            (* 164-166 *)
    sstep strict s (OFindInfo uid cid) (None, Some ErrUnsupported) s
| ss_find_active s id :                                                               (* 168-174 *)
    sstep strict s (OFindActiveInfo id)
      (match zget id (st_infos s) with Some i => (Some i, None) | None => failed end) s
| ss_find_access s t :                                                                (* 176-182 *)
    sstep strict s (OFindByAccess t)
      (match sget t (st_tokens s) with Some x => (Some x, None) | None => failed end) s
| ss_find_refresh s t k x :                                                           (* 184-191 *)
    In (k, x) (st_tokens s) -> ot_refresh x = t ->
    sstep strict s (OFindByRefresh t) (Some x, None) s
| ss_find_refresh_no s t :
    (forall k x, In (k, x) (st_tokens s) -> ot_refresh x <> t) ->
    sstep strict s (OFindByRefresh t) failed s
| ss_create_token s i b t1 t2 :                                                       (* 198-208 *)
    sstep strict s (OCreateToken (Some i) b) (Some (created_token i t1 t2), None)
      (set_tokens s (aput seqb (ot_access (created_token i t1 t2)) (created_token i t1 t2)
                          (st_tokens s)))
| ss_refresh s i old x t :                                                            (* 223-233 *)
    sget (ot_access old) (st_tokens s) = Some x ->
    let new := OAuthToken (ot_auth_id x) (ot_access x ++ ":R") 86400 t (ot_refresh x)
                          (ot_refresh_expires x) (ot_created x) in
    sstep strict s (ORefresh i old) (Some new, None)
      (set_tokens s (aput seqb (ot_access new) new (adel seqb (ot_access old) (st_tokens s))))
| ss_create_info s uid cid scope id i :                                               (* 90-107: known *)
    In (id, i) (st_infos s) -> same_user_client uid cid (id, i) = true ->
    let i' := AuthInfo (ai_id i) (ai_client i) (ai_user i) (itoa uid) scope
                       (ai_authorized_at i) (ai_active i) in
    sstep strict s (OCreateInfo uid cid scope) (Some i', None)
      (set_infos s (st_next_info s) (aput Z.eqb id i' (st_infos s)))
| ss_create_info_new s uid cid scope :                                                (* 90-107: new *)
    (forall p, In p (st_infos s) -> same_user_client uid cid p = false) ->
    let i' := AuthInfo (st_next_info s) cid uid (itoa uid) scope 0 true in
    sstep strict s (OCreateInfo uid cid scope) (Some i', None)
      (set_infos s (st_next_info s + 1)%Z (aput Z.eqb (st_next_info s) i' (st_infos s)))
| ss_create_session s i x :                                                           (* 77-88 *)
    sstep strict s (OCreateSession (Some i) x) None
      (set_sessions s (aput seqb (s_code x) (stored_session i x) (st_sessions s)))
| ss_disable s x :                                                                    (* 193-196 *)
    (strict = true -> sget (as_code x) (st_sessions s) <> None) ->
    sstep strict s (ODisable x) None (set_sessions s (adel seqb (as_code x) (st_sessions s)))
| ss_disable_strict s x :
    strict = true -> sget (as_code x) (st_sessions s) = None ->
    sstep strict s (ODisable x) (Some ErrFailed) s
| ss_find_sub s sub p id :                                                            (* 214-221 *)
    In (id, sub, p) (st_users s) -> sstep strict s (OFindUserBySub sub) (id, None) s
| ss_find_sub_no s sub :
    (forall id p, ~ In (id, sub, p) (st_users s)) ->
    sstep strict s (OFindUserBySub sub) ((-1)%Z, Some ErrFailed) s
| ss_record s cid jti iat exp : sstep strict s (ORecord cid jti iat exp) None s       (* 210-212 *)
| ss_error_screen s n : sstep strict s (OErrorScreen n) tt s
| ss_login_screen s q x : sstep strict s (OLoginScreen q) x s
| ss_consent_screen s c q x : sstep strict s (OConsentScreen c q) x s
| ss_locale s l x : sstep strict s (OChooseLocale l) x s
| ss_confirm s x : sstep strict s OConfirmLogin x s
| ss_from_login s x : sstep strict s OFromLogin x s
| ss_auth_time s x : sstep strict s OAuthTime x s
| ss_login_user s x : sstep strict s OLoginUser x s
| ss_create_code s x : sstep strict s OCreateCode x s
| ss_continue s x : sstep strict s OContinue x s
| ss_match s sub x : sstep strict s (OMatchSubject sub) x s
| ss_now s t : sstep strict s ONow t s
| ss_jwt_now s t : sstep strict s OJwtNow t s
| ss_log s l e a : sstep strict s (OLog l e a) tt s
| ss_header s k v : sstep strict s (OSetHeader k v) tt s
| ss_status s n : sstep strict s (OStatus n) tt s
| ss_body s b : sstep strict s (OBody b) tt s
| ss_redirect s u : sstep strict s (ORedirect u) tt s
| ss_order s m x : sstep strict s (OMapOrder m) x s.
