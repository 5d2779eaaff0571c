(** * How much a request does (C78). *)
From Coq Require Import Lia.
From Verif Require Import Core World Spec TokenSpec Sha Utils OAuthError Grants TokenEndpoint AuthzResponse AuthzEndpoint AuthzSpec ResourceProtector
  TestStore SysSpec BoundSpec Hoare Demo SysFacts SysTrace SysDemo TraceFacts Bound BoundFacts BoundAuthz PropsSystem.

(** ** C78 Bounded work *)

(* The token endpoint: at most eight calls of the data layer, one of which makes a
   token, at most one records an authorization and at most one ends_session a session;
   none stores a session; at most five log entries. *)
Theorem C78_token_work : forall J te r tr o,
  only_bundled J te -> exec (token_handler J te r) tr o -> work_within 8 1 0 1 1 5 tr.
Proof.
  intros J te r tr o HB He. unfold work_within.
  pose proof (most_exec _ _ _ _ _ (token_data J te r HB) He).
  pose proof (most_exec _ _ _ _ _ (token_token J te r HB) He).
  pose proof (most_exec _ _ _ _ _ (token_session J te r HB) He).
  pose proof (most_exec _ _ _ _ _ (token_info J te r HB) He).
  pose proof (most_exec _ _ _ _ _ (token_disable1 J te r HB) He).
  pose proof (most_exec _ _ _ _ _ (token_log J te r HB) He).
  auto 10.
Qed.
Print Assumptions C78_token_work.

(* The authorization endpoint. *)
Theorem C78_authorization_work : forall E pol,
  (forall r tr o, exec (handle_request E pol r) tr o -> work_within 6 1 1 0 0 8 tr) /\
  (forall tr o, exec (complete_request E pol) tr o -> work_within 5 1 1 1 0 1 tr) /\
  (forall tr o, exec (cancel_request E) tr o -> work_within 0 0 0 0 0 1 tr).
Proof.
  intros E pol. split; [apply handle_within|]. split; [apply completing_within|apply cancel_within].
Qed.
Print Assumptions C78_authorization_work.

(* The resource protector. *)
Theorem C78_resource_work : forall rp r,
  (forall tr o, exec (validate rp r) tr o -> work_within 2 0 0 0 0 1 tr) /\
  (forall m tr o, exec (validate_with_scopes rp r m) tr o -> work_within 2 0 0 0 0 1 tr).
Proof. intros rp r. split; [apply validate_within|apply scopes_within]. Qed.
Print Assumptions C78_resource_work.

Lemma psteps_steps {S} (W : rworld S) c0 c : psteps W c0 c -> forall s0 progs, c0 = (s0, map start progs) ->
  Forall2 (fun (p : prog unit) th => steps p (th_past th) (th_rest th)) progs (snd c).
Proof.
  induction 1 as [c|c1 c2 c3 H1 IH H2]; intros s0 progs E.
  - subst. simpl. clear. induction progs as [|p l IH]; constructor; [constructor|exact IH].
  - specialize (IH s0 progs E). destruct H2 as [s s' before past o k x after HW]. simpl in *.
    apply Forall2_app_inv_r in IH. destruct IH as (l1 & l2 & F1 & F2 & ->).
    inversion F2 as [|p th l2' after' HS HF]; subst. apply Forall2_app; [exact F1|]. constructor; [|exact HF].
    simpl in *. apply steps_snoc. exact HS.
Qed.
Lemma goidc_work p tr q : goidc p -> steps p tr q -> work_within 8 1 1 1 1 8 tr.
Proof.
  intros HG HS.
  assert (K : forall a b c d e f t, work_within a b c d e f (tr ++ t) ->
    (a <= 8 -> b <= 1 -> c <= 1 -> d <= 1 -> e <= 1 -> f <= 8 -> work_within 8 1 1 1 1 8 tr)%nat).
  { unfold work_within. intros a b c d e f t H. rewrite !count_app in H. lia. }
  destruct HG as [J te r HB|E pol r|E pol|E|rp r|rp r m].
  - destruct (steps_prefix _ _ _ HS) as (t & o & He). eapply K; [eapply C78_token_work; eauto|lia..].
  - destruct (steps_done _ _ _ HS) as (t & o & He). eapply K; [eapply handle_within; eauto|lia..].
  - destruct (steps_done _ _ _ HS) as (t & o & He). eapply K; [eapply completing_within; eauto|lia..].
  - destruct (steps_done _ _ _ HS) as (t & o & He). eapply K; [eapply cancel_within; eauto|lia..].
  - destruct (steps_done _ _ _ HS) as (t & o & He). eapply K; [eapply validate_within; eauto|lia..].
  - destruct (steps_done _ _ _ HS) as (t & o & He). eapply K; [eapply scopes_within; eauto|lia..].
Qed.

(* A whole service: any number of calls of the entry points, interleaved in any way
   over any data layer, whatever it answers, each cut off anywhere. *)
Theorem C78_service_work : forall S (W : rworld S) s0 progs s ths,
  Forall goidc progs -> psteps W (s0, map start progs) (s, ths) ->
  let n := length progs in work_within (8 * n) n n n n (8 * n) (all_events ths).
Proof.
  intros S W s0 progs s ths HG HP. simpl. pose proof (psteps_steps _ _ _ HP _ _ eq_refl) as HF. simpl in HF. clear HP.
  induction HF as [|p th l ths' HS HF IH]; [unfold work_within, times; simpl; lia|].
  inversion HG as [|x y H1 H2]; subst. specialize (IH H2). pose proof (goidc_work _ _ _ H1 HS) as HW.
  unfold work_within, all_events in *. cbn [flat_map length]. rewrite !count_app. lia.
Qed.
Print Assumptions C78_service_work.

(* The bounds are met: a code exchange with an ID token. *)
Example C78_example :
  let tr := trace_of (answers1 "") (demo_token code_request) in
  exec (demo_token code_request) tr (Done tt) /\
  times is_data tr = 6%nat /\ times makes_token tr = 1%nat /\ times ends_session tr = 1%nat.
Proof. split; [apply demo_run; vm_compute; reflexivity|vm_compute; auto]. Qed.
