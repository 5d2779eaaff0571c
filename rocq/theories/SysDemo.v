(** * Concrete runs over the bundled store, for examples and counterexamples.

    Nothing here models code of /repo. *)
From Verif Require Import Core World Spec TokenSpec OAuthError Assertion Grants TokenEndpoint AuthzResponse AuthzEndpoint
  Hoare Demo TestStore SysSpec.

(** The transition of the store, where there is one, with fixed answers [w] for
    callbacks and clocks. *)
Definition sfun (b : bool) (w : answers) (s : store) (o : op) : option (ans o * store) :=
  match o as o0 return option (ans o0 * store) with
  | OIssuer => Some ("http://example.org/", s)
  | OFindUser u p =>
      Some (match find (fun x => (snd (fst x) =s? u) && (snd x =s? p))%bool (st_users s) with
            | Some x => (fst (fst x), None) | None => ((-1)%Z, Some ErrFailed) end, s)
  | OFindUserBySub sub =>
      Some (match find (fun x => snd (fst x) =s? sub) (st_users s) with
            | Some x => (fst (fst x), None) | None => ((-1)%Z, Some ErrFailed) end, s)
  | OFindClient cid => Some (match sget cid (st_clients s) with Some c => (Some c, None) | None => failed end, s)
  | OFindSession code =>
      Some (match sget code (st_sessions s) with Some x => (Some x, None) | None => failed end, s)
  | OFindInfo _ _ => Some ((None, Some ErrUnsupported), s)
  | OFindActiveInfo id =>
      Some (match zget id (st_infos s) with Some i => (Some i, None) | None => failed end, s)
  | OFindByAccess t => Some (match sget t (st_tokens s) with Some x => (Some x, None) | None => failed end, s)
  | OFindByRefresh t =>
      Some (match find (fun p => ot_refresh (snd p) =s? t) (st_tokens s) with Some (_, x) => (Some x, None) | None => failed end, s)
  | ORefresh i old =>
      match sget (ot_access old) (st_tokens s) with
      | Some x =>
          let new := OAuthToken (ot_auth_id x) (ot_access x ++ ":R") 86400 (w_now w) (ot_refresh x) (ot_refresh_expires x) (ot_created x) in
          Some ((Some new, None), set_tokens s (aput seqb (ot_access new) new (adel seqb (ot_access old) (st_tokens s))))
      | None => None
      end
  | OCreateToken (Some i) _ =>
      let t := created_token i (w_now w) (w_now w) in
      Some ((Some t, None), set_tokens s (aput seqb (ot_access t) t (st_tokens s)))
  | OCreateInfo uid cid scope =>
      match find (same_user_client uid cid) (st_infos s) with
      | Some (id, i) =>
          let i' := AuthInfo (ai_id i) (ai_client i) (ai_user i) (itoa uid) scope
                             (ai_authorized_at i) (ai_active i) in
          Some ((Some i', None), set_infos s (st_next_info s) (aput Z.eqb id i' (st_infos s)))
      | None =>
          let i' := AuthInfo (st_next_info s) cid uid (itoa uid) scope 0 true in
          Some ((Some i', None), set_infos s (st_next_info s + 1)%Z (aput Z.eqb (st_next_info s) i' (st_infos s)))
      end
  | OCreateSession (Some i) x =>
      Some (None, set_sessions s (aput seqb (s_code x) (stored_session i x) (st_sessions s)))
  | ODisable x =>
      if (b && match sget (as_code x) (st_sessions s) with Some _ => false | None => true end)%bool
      then Some (Some ErrFailed, s)
      else Some (None, set_sessions s (adel seqb (as_code x) (st_sessions s)))
  | ORecord _ _ _ _ => Some (None, s)
  | OErrorScreen _ => Some (tt, s)
  | OLoginScreen _ => Some (Some tt, s)
  | OConsentScreen _ _ => Some (Some tt, s)
  | OChooseLocale l => Some (Some l, s)
  | OConfirmLogin => Some (w_login w, s)
  | OFromLogin => Some (w_from_login w, s)
  | OAuthTime => Some (w_auth_time w, s)
  | OLoginUser => Some (w_login_user w, s)
  | OCreateCode => Some (w_code w, s)
  | OContinue => Some (w_continue w, s)
  | OMatchSubject _ => Some (w_subject w, s)
  | ONow => Some (w_now w, s)
  | OJwtNow => Some (w_now w, s)
  | OLog _ _ _ => Some (tt, s)
  | OSetHeader _ _ => Some (tt, s)
  | OStatus _ => Some (tt, s)
  | OBody _ => Some (tt, s)
  | ORedirect _ => Some (tt, s)
  | OMapOrder m => Some (any_ans (OMapOrder m), s)
  | _ => None
  end.

Lemma sfun_step b w s o a s' : sfun b w s o = Some (a, s') -> sstep b s o a s'.
Proof.
  destruct o; simpl; intros H; try discriminate; try (injection H as <- <-; constructor; fail).
  - destruct (find _ (st_tokens s)) as [[t' x]|] eqn:E; injection H as <- <-.
    + apply find_some in E. destruct E as [E1 E2]. simpl in E2. apply String.eqb_eq in E2. eapply ss_find_refresh; eauto.
    + apply ss_find_refresh_no. intros t' x Hp Hx. pose proof (find_none _ _ E _ Hp) as X. simpl in X. subst t. rewrite String.eqb_refl in X. discriminate.
  - destruct i; [|discriminate]. injection H as <- <-. constructor.
  - destruct (sget (ot_access t) (st_tokens s)) as [x|] eqn:E; [|discriminate]. injection H as <- <-. apply (ss_refresh b s i t x (w_now w) E).
  - destruct (find _ (st_users s)) as [[[id n] p]|] eqn:E; injection H as <- <-.
    + apply find_some in E. destruct E as [E1 E2]. simpl in E2. apply andb_prop in E2. destruct E2 as [E2 E3].
      apply String.eqb_eq in E2, E3. subst. apply ss_find_user. exact E1.
    + apply ss_find_user_no. intros id Hp. pose proof (find_none _ _ E _ Hp) as X. simpl in X. rewrite !String.eqb_refl in X. discriminate X.
  - destruct (find _ (st_infos s)) as [[id i]|] eqn:E.
    + injection H as <- <-. apply find_some in E. destruct E as [E1 E2]. apply ss_create_info; assumption.
    + injection H as <- <-. apply ss_create_info_new. intros p Hp. exact (find_none _ _ E p Hp).
  - destruct i; [|discriminate]. injection H as <- <-. constructor.
  - destruct (sget (as_code s0) (st_sessions s)) eqn:E; destruct b; simpl in H; injection H as <- <-;
      try (apply ss_disable; congruence). apply ss_disable_strict; auto.
  - destruct (find _ (st_users s)) as [[[id n] p]|] eqn:E; injection H as <- <-.
    + apply find_some in E. destruct E as [E1 E2]. simpl in E2. apply String.eqb_eq in E2. subst. apply (ss_find_sub b s _ p). exact E1.
    + apply ss_find_sub_no. intros id p Hp. pose proof (find_none _ _ E _ Hp) as X. simpl in X. rewrite String.eqb_refl in X. discriminate X.
Qed.

(** [n] operations of one program. *)
Fixpoint srun (b : bool) (w : answers) (n : nat) (s : store) (p : prog unit) : list event * prog unit * store :=
  match n, p with
  | Datatypes.S n, Vis o k =>
      match sfun b w s o with
      | Some (a, s1) => let '(t, q, s') := srun b w n s1 (k a) in (Ev o a :: t, q, s')
      | None => ([], p, s)
      end
  | _, _ => ([], p, s)
  end.

Lemma srun_rsteps b w n : forall s p tr q s', srun b w n s p = (tr, q, s') -> rsteps (sstep b) s p tr q s'.
Proof.
  induction n as [|n IH]; intros s p tr q s' H; simpl in H.
  - injection H as <- <- <-. constructor.
  - destruct p as [a| |o k]; try (injection H as <- <- <-; constructor).
    destruct (sfun b w s o) as [[a s1]|] eqn:E; [|injection H as <- <- <-; constructor].
    destruct (srun b w n s1 (k a)) as [[t q'] s2] eqn:E2. injection H as <- <- <-.
    econstructor; [eapply sfun_step; eauto|eauto].
Qed.

(** A schedule: which thread performs the next operation. *)
Fixpoint sched (b : bool) (w : answers) (l : list nat) (s : store) (ths : list (thread unit)) : store * list (thread unit) :=
  match l with
  | [] => (s, ths)
  | n :: l =>
      match nth_error ths n with
      | Some (Thread past (Vis o k)) =>
          match sfun b w s o with
          | Some (a, s1) => sched b w l s1 (firstn n ths ++ Thread (past ++ [Ev o a]) (k a) :: skipn (Datatypes.S n) ths)
          | None => (s, ths)
          end
      | _ => (s, ths)
      end
  end.

Lemma psteps_trans {S A} (W : rworld S) (c1 c2 c3 : S * list (thread A)) : psteps W c1 c2 -> psteps W c2 c3 -> psteps W c1 c3.
Proof. intros H1 H2. revert H1. induction H2 as [c|a b d H IH HS]; intros H1; [exact H1|]. econstructor; [apply IH; exact H1|exact HS]. Qed.

Lemma sched_psteps b w l : forall s ths s' ths', sched b w l s ths = (s', ths') -> psteps (sstep b) (s, ths) (s', ths').
Proof.
  induction l as [|n l IH]; intros s ths s' ths' H; simpl in H.
  - injection H as <- <-. constructor.
  - destruct (nth_error ths n) as [[past [a| |o k]]|] eqn:E; try (injection H as <- <-; constructor).
    destruct (sfun b w s o) as [[a s1]|] eqn:E2; [|injection H as <- <-; constructor].
    eapply psteps_trans; [|eapply IH; exact H].
    econstructor; [constructor|].
    assert (X : ths = (firstn n ths ++ Thread past (Vis o k) :: skipn (Datatypes.S n) ths)%list).
    { clear - E. revert n E. induction ths as [|th l IH]; intros [|n] E; try discriminate; simpl in *.
      - injection E as ->. reflexivity.
      - f_equal. apply IH. exact E. }
    rewrite X at 1. constructor. eapply sfun_step; eauto.
Qed.

(** ** Data *)
Definition store1 : store :=
  Store 8 [] [("client1", client1)] [(7%Z, info1)] [("code1", session1 "")] [].
Definition demo_token (r : request) : prog unit := token_handler demoJ te0 r.

(** A store with no sessions and no authorizations. *)
Definition store0 : store := Store 0 [] [("client1", client1)] [] [] [].

(** User 42 has just agreed to this request of client1. *)
Definition agreed_request : arequest :=
  ARequest (Some (Flow FAuthorizationCode false false)) "client1" "openid email" "https://rp.example/cb" "query" "s1"
    "a-code-verifier" "n1" "page" "" 0 "ja" "" "".
Definition agreeing : answers :=
  let w := answers1 "" in
  Answers (w_client w) (w_session w) (w_active w) (w_info w) (w_access w) (w_refresh w) (w_token w)
    (w_user w) (w_disable w) (w_record w) (w_now w) (w_login w) (w_from_login w) (w_auth_time w)
    (w_login_user w) (w_code w) (w_subject w) (Some (Some agreed_request)).
Definition demo_complete : prog unit := done (complete_request (Env demoJ (fun _ => true)) default_policy).
Definition plain_request : request := pkce_request "plain" "a-code-verifier".

Lemma te0_bundled : only_bundled demoJ te0.
Proof.
  intros gt h [H|[H|[H|[H|[H|[]]]]]]; injection H as <- <-; constructor.
Qed.
Lemma te0_code : registered te0 "authorization_code" (authorization_code demoJ).
Proof.
  exists [], [("refresh_token", refresh_token); ("password", password_grant); ("client_credentials", client_credentials);
     (TypeJWT, jwt_grant demoJ)]. split; [reflexivity|]. simpl. intuition discriminate.
Qed.
Lemma demo_presents : presents (demo_token code_request) "code1".
Proof. exists demoJ, te0, code_request. split; [reflexivity|]. split; [exact te0_bundled|]. split; [exact te0_code|reflexivity]. Qed.
