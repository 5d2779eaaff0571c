(** * Proofs for C93: the authorization endpoint. *)
From Verif Require Import WpTac Utils OAuthError IdToken Assertion AuthzResponse AuthzEndpoint ReportSpec ReportFacts.

(** An error of a callback that is owed a line. *)
Definition owed (e : event) : Prop := callback_error e = true /\ is_login_screen (ev_op e) = false.

Definition aguard : guard := fun h o =>
  match final h with
  | Some e => owed e ->
      exists m attrs, o = OLog LError InterfaceError (("method", m) :: attrs) /\ reported_as (ev_op e) m
  | None => True
  end /\
  match o with
  | OLog l k _ => k = InterfaceError ->
      match final h with
      | Some e => l = LError /\ (callback_error e = true \/ exists cid x, e = Ev (OFindClient cid) x /\ breakdown_of e <> None)
      | None => False
      end
  | _ => True
  end.
Definition acalm (h : list event) : Prop := forall e, final h = Some e -> ~ owed e.
Definition apost {A} : post A := fun h _ => acalm h.

Lemma acalm_nil : acalm [].
Proof. intros e H. discriminate H. Qed.
Lemma acalm_snoc h o x : callback_error (Ev o x) = false \/ is_login_screen o = true -> acalm (h ++ [Ev o x])%list.
Proof. intros H e. rewrite final_snoc. injection 1 as <-. intros [H1 H2]. cbn [ev_op] in H2. destruct H; congruence. Qed.
Lemma aguard_calm h o : acalm h -> match o with OLog _ k _ => k <> InterfaceError | _ => True end -> aguard h o.
Proof.
  intros HC HO. split.
  - destruct (final h) eqn:E; [|exact I]. intros HB. destruct (HC _ E HB).
  - destruct o; auto. intros HB. destruct (HO HB).
Qed.
Lemma aguard_report h o x m attrs : callback_error (Ev o x) = true -> reported_as o m ->
  aguard (h ++ [Ev o x])%list (OLog LError InterfaceError (("method", m) :: attrs)).
Proof.
  intros H1 H2. unfold aguard. rewrite final_snoc. split; [|auto]. intros _. do 2 eexists. split; [reflexivity|exact H2].
Qed.

Ltac acalm1 := first [assumption | apply acalm_nil | apply acalm_snoc; first [left; reflexivity | right; reflexivity]].
Ltac aleaf :=
  lazymatch goal with
  | |- aguard _ (OLog _ InterfaceError _) => apply aguard_report; reflexivity
  | |- aguard _ _ => apply aguard_calm; [acalm1 | first [exact I | discriminate]]
  | |- apost _ _ => red; acalm1
  end.

Lemma send_a E k uri params h : acalm h -> wp aguard apost h (rh_success E k uri params).
Proof. intros H. unfold rh_success. wp_go; aleaf. Qed.
Lemma send_then {A} E k uri params h (q : prog A) : acalm h -> (forall h', acalm h' -> wp aguard apost h' q) ->
  wp aguard apost h (rh_success E k uri params ;;; q).
Proof.
  intros H HQ. apply wp_bind. eapply wp_post; [|apply send_a; exact H]. intros h' [u|] HP; [apply HQ; exact HP|exact HP].
Qed.
Lemma ret_a {A} h (a : A) : acalm h -> wp aguard apost h (Ret a).
Proof. intros H. exact H. Qed.
Lemma answer_a E req typ desc h : acalm h -> wp aguard apost h (answer_error E req typ desc).
Proof. intros H. unfold answer_error, rh_error. apply send_then; [exact H|]. intros. apply ret_a. assumption. Qed.
Lemma early_a {A} E mode ruri typ desc state h : acalm h -> wp aguard apost h (@early A E mode ruri typ desc state).
Proof. intros H. unfold early, rh_error. apply send_then; [exact H|]. intros. apply ret_a. assumption. Qed.
Lemma failed_a E req o x m h : callback_error (Ev o x) = true -> reported_as o m ->
  wp aguard apost (h ++ [Ev o x])%list (callback_failed E req m).
Proof.
  intros H1 H2. unfold callback_failed, logm, call. cbn [bind]. apply wp_vis; [apply aguard_report; assumption|].
  intros u. apply answer_a. acalm1.
Qed.

Ltac astep :=
  lazymatch goal with
  | |- wp _ _ _ (answer_error _ _ _ _) => apply answer_a; acalm1
  | |- wp _ _ _ (early _ _ _ _ _ _) => apply early_a; acalm1
  | |- wp _ _ _ (callback_failed _ _ _) => apply failed_a; reflexivity
  | |- wp _ _ _ (bind (rh_success _ _ _ _) _) => apply send_then; [acalm1|intros ? ?; apply ret_a; assumption]
  | |- wp _ _ _ (bind (rh_error _ _ _ _ _ _) _) => unfold rh_error; apply send_then; [acalm1|intros ? ?; apply ret_a; assumption]
  | |- wp _ _ _ _ => wp_step
  | |- _ => aleaf
  end.
Ltac ago := repeat astep.

Lemma complete_a E pol info req h : acalm h -> wp aguard apost h (complete E pol info req).
Proof.
  intros H. unfold complete. destruct (rq_flow req) as [f|]; [|apply wp_panic; exact H].
  destruct (f_type f); unfold complete_code, complete_implicit, complete_hybrid; cbv zeta; ago.
Qed.
Lemma consent_a E pol c req h : acalm h -> wp aguard apost h (hr_consent E pol c req).
Proof.
  intros H. unfold hr_consent, show_consent, consent_reusable.
  repeat first [ lazymatch goal with |- wp _ _ _ (complete _ _ _ _) => apply complete_a; acalm1 end | astep ].
Qed.
Lemma login_a E pol c req mas h : acalm h -> wp aguard apost h (hr_login E pol c req mas).
Proof.
  intros H. unfold hr_login, hr_max_age.
  repeat first [ lazymatch goal with |- wp _ _ _ (hr_consent _ _ _ _) => apply consent_a; acalm1 end | astep ].
Qed.
Lemma tail_a E pol req h : acalm h -> wp aguard apost h (none_tail E pol req).
Proof.
  intros H. unfold none_tail, consent_reusable.
  repeat first [ lazymatch goal with |- wp _ _ _ (complete _ _ _ _) => apply complete_a; acalm1 end | astep ].
Qed.
Lemma none_a E pol c req mas h : acalm h -> wp aguard apost h (hr_none E pol c req mas).
Proof.
  intros H. unfold hr_none, none_session, none_match, jwt_parse.
  repeat first [ lazymatch goal with
    | |- wp _ _ _ (none_tail _ _ _) => apply tail_a; acalm1
    | |- wp _ _ _ (hr_login _ _ _ _ _) => apply login_a; acalm1 end | astep ].
Qed.
Lemma after_a E pol c req mas h : acalm h -> wp aguard apost h (hr_after E pol c req mas).
Proof.
  intros H. unfold hr_after, hr_session. destruct (rq_prompt req =s? PNone); [apply none_a; exact H|].
  repeat first [ lazymatch goal with
    | |- wp _ _ _ (hr_login _ _ _ _ _) => apply login_a; acalm1 end | astep ].
Qed.

Lemma client_a r : wp aguard apost [] (hr_client r).
Proof.
  unfold hr_client. cbv zeta.
  repeat first [ lazymatch goal with
    | |- aguard (_ ++ [Ev (OFindClient _) _])%list (OLog _ InterfaceError _) =>
        unfold aguard; rewrite final_snoc; split; [intros [HH _]; discriminate HH|];
        intros _; split; [reflexivity|]; right; do 2 eexists; split; [reflexivity|discriminate]
    end | astep ].
Qed.
Lemma mode_a E pol r ruri state h : acalm h -> wp aguard apost h (hr_mode E pol r ruri state).
Proof.
  intros H. unfold hr_mode. cbv zeta.
  repeat first [ lazymatch goal with
    | |- wp _ _ _ (bind (early _ _ _ _ _ _) _) => apply wp_bind; eapply wp_post; [|apply early_a; acalm1];
         intros ? [[?|]|] ?
    | |- apost ?h _ => is_var h; assumption end | astep ].
Qed.
Lemma params_a E pol r c cid ruri state f rmode rt h : acalm h ->
  wp aguard apost h (hr_params E pol r c cid ruri state f rmode rt).
Proof.
  intros H. unfold hr_params, offline_scope. cbv zeta. ago.
Qed.

Lemma handle_a E pol r : wp aguard apost [] (handle_request E pol r).
Proof.
  unfold handle_request. apply wp_bind. eapply wp_post; [|apply client_a].
  intros h1 [[[[c cid] ruri]|]|] H1; try exact H1. cbv zeta.
  apply wp_bind. eapply wp_post; [|apply mode_a; exact H1].
  intros h2 [[[[f rmode] rt]|]|] H2; try exact H2.
  apply wp_bind. eapply wp_post; [|apply params_a; exact H2].
  intros h3 [[req|]|] H3; try exact H3. apply after_a. exact H3.
Qed.
Lemma cancel_a E : wp aguard apost [] (cancel_request E).
Proof. unfold cancel_request. ago. Qed.
Lemma complete_request_a E pol : wp aguard apost [] (complete_request E pol).
Proof.
  unfold complete_request.
  repeat first [ lazymatch goal with |- wp _ _ _ (complete _ _ _ _) => apply complete_a; acalm1 end | astep ].
Qed.

Lemma callbacks_told {A} p tr (res : outcome A) : wp aguard apost [] p -> exec p tr res ->
  callbacks_reported tr /\ callback_reports_true tr.
Proof.
  intros HW HX. split.
  - intros t1 e t2 HE H1 H2. destruct t2 as [|e' t3].
    + exfalso. pose proof (wp_exec _ _ _ _ _ HW HX) as HQ. subst tr. exact (HQ e (final_snoc _ _) (conj H1 H2)).
    + assert (HG : aguard (t1 ++ [e])%list (ev_op e')).
      { apply (wp_guard _ _ _ _ _ (t1 ++ [e])%list e' t3 HW HX). rewrite <- app_assoc. exact HE. }
      destruct HG as [HG _]. rewrite final_snoc in HG. destruct (HG (conj H1 H2)) as (m & attrs & E & R).
      exists m, attrs, t3. destruct e' as [o x]. cbn [ev_op] in E. subst o. destruct x. auto.
  - intros t1 l attrs u t2 HE. destruct (wp_guard _ _ _ _ _ t1 _ t2 HW HX HE) as [_ H].
    cbn [ev_op] in H. specialize (H eq_refl). destruct (final t1) as [e|] eqn:EF; [|destruct H].
    destruct (final_inv _ _ EF) as [t0 ->]. exists t0, e. tauto.
Qed.
