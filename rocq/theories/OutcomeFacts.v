(** * One outcome for every authorization request. *)
From Coq Require Import Lia.
From Verif Require Import WpTac Sha Utils OAuthError Assertion IdToken AuthzResponse AuthzEndpoint TokenSpec AuthzSpec FlowSpec
  UtilsFacts AuthzFacts AuthzDecide AuthzValidate AuthzProofs AuthzMore ReasonFacts.

Lemma outcomes_app a b : outcomes (a ++ b) = (outcomes a ++ outcomes b)%list.
Proof. apply filter_app. Qed.

(** The pattern of outcomes of a run that returns [b]. *)
Definition pattern_of (l : list event) (b : bool) : Prop :=
  (exists e, l = [e]) \/ (exists s e, l = [s; e] /\ screen_failed s /\ is_answer e /\ b = false).

Definition one (p : prog bool) : Prop := forall tr b, exec p tr (Done b) -> pattern_of (outcomes tr) b.
(** [p] answers the client. *)
Definition ans1 {A} (p : prog A) : Prop := forall tr a, exec p tr (Done a) ->
  exists e, outcomes tr = [e] /\ is_answer e.
(** [p] shows nothing. *)
Definition silent0 {A} (p : prog A) : Prop := forall tr a, exec p tr (Done a) -> outcomes tr = [].

Lemma one_panic : one Panic.
Proof. intros tr b H. apply exec_inv in H. destruct H as [_ H]. discriminate. Qed.
Lemma one_vis o k : outcome_op o = false -> (forall x, one (k x)) -> one (Vis o k).
Proof.
  intros Ho Hk tr b H. apply exec_inv in H. destruct H as (x & tr' & -> & H).
  unfold outcomes. simpl. rewrite Ho. apply (Hk x _ _ H).
Qed.
Lemma one_end o (k : ans o -> bool) : outcome_op o = true -> one (Vis o (fun x => Ret (k x))).
Proof.
  intros Ho tr b H. apply exec_inv in H. destruct H as (x & tr' & -> & H). apply exec_inv in H.
  destruct H as [-> _]. left. exists (Ev o x). unfold outcomes. simpl. rewrite Ho. reflexivity.
Qed.
Lemma one_if (b : bool) p q : one p -> one q -> one (if b then p else q).
Proof. destruct b; auto. Qed.
Lemma one_silent {A} (p : prog A) k : silent0 p -> (forall a, one (k a)) -> one (bind p k).
Proof.
  intros Hp Hk tr b H. apply exec_bind in H. destruct H as [(t1 & t2 & a & H1 & H2 & ->)|[_ H]]; [|discriminate].
  rewrite outcomes_app, (Hp _ _ H1). apply (Hk a _ _ H2).
Qed.
Lemma one_ans1 p b : ans1 p -> one (bind p (fun _ : unit => Ret b)).
Proof.
  intros Hp tr b' H. apply exec_bind in H. destruct H as [(t1 & t2 & a & H1 & H2 & ->)|[_ H]]; [|discriminate].
  apply exec_inv in H2. destruct H2 as [-> _]. rewrite app_nil_r. destruct (Hp _ _ H1) as (e & -> & _).
  left. eauto.
Qed.

Lemma send_ans1 E k uri params : ans1 (rh_success E k uri params).
Proof.
  intros tr a H. destruct k; unfold rh_success, call in H; cbn [bind] in H.
  - destruct (e_url_ok E uri); apply exec_inv in H; [|destruct H as [_ H]; discriminate].
    destruct H as (x & tr' & -> & H). apply exec_inv in H. destruct H as [-> _].
    eexists. split; [reflexivity|]. left. eexists. reflexivity.
  - destruct (e_url_ok E uri); apply exec_inv in H; [|destruct H as [_ H]; discriminate].
    destruct H as (x & tr' & -> & H). apply exec_inv in H. destruct H as [-> _].
    eexists. split; [reflexivity|]. left. eexists. reflexivity.
  - repeat (apply exec_inv in H; destruct H as (? & ? & -> & H)). apply exec_inv in H. destruct H as [-> _].
    eexists. split; [reflexivity|]. right. eexists. reflexivity.
Qed.

Lemma one_answer_error E req typ desc : one (answer_error E req typ desc).
Proof. unfold answer_error. apply one_ans1. apply send_ans1. Qed.

(** A screen, and an error answer if it fails. *)
Lemma one_screen o E req m b (ok : ans o -> bool) :
  outcome_op o = true -> (forall x, ok x = false -> screen_failed (Ev o x)) ->
  one (Vis o (fun x => if ok x then Ret b else callback_failed E req m)).
Proof.
  intros Ho Hs tr b' H. apply exec_inv in H. destruct H as (x & tr' & -> & H).
  destruct (ok x) eqn:EO.
  - apply exec_inv in H. destruct H as [-> _]. left. exists (Ev o x). unfold outcomes. simpl. rewrite Ho. reflexivity.
  - unfold callback_failed, logm, call in H. cbn [bind] in H. apply exec_inv in H.
    destruct H as (y & tr1 & -> & H). unfold answer_error in H. apply exec_bind in H.
    destruct H as [(t1 & t2 & a & H1 & H2 & ->)|[_ H]]; [|discriminate].
    apply exec_inv in H2. destruct H2 as [-> Hb]. injection Hb as ->. rewrite app_nil_r.
    destruct (send_ans1 _ _ _ _ _ _ H1) as (e & He1 & He2).
    right. exists (Ev o x), e. unfold outcomes in *. simpl. rewrite Ho, He1. auto.
Qed.

Ltac ostep :=
  lazymatch goal with
  | |- one Panic => apply one_panic
  | |- one (answer_error _ _ _ _) => apply one_answer_error
  | |- one (callback_failed _ _ _) => unfold callback_failed
  | |- one (bind (rh_success _ _ _ _) (fun _ => Ret _)) => apply one_ans1; apply send_ans1
  | |- one (Vis (OLoginScreen _) (fun _ => Ret _)) => apply (one_end (OLoginScreen _) (fun _ => _)); reflexivity
  | |- one (Vis _ _) => apply one_vis; [reflexivity|]; let x := fresh "x" in intros x; cbn beta
  | |- one ?p =>
      let q := head p in
      lazymatch q with
      | Ret _ => cbn [bind]
      | Vis _ _ => cbn [bind]
      | call _ => unfold call; cbn [bind]
      | logm _ _ _ => unfold logm, call; cbn [bind]
      | match ?x with _ => _ end => destruct x eqn:?; cbn [negb fst snd]
      end
  end.

Lemma one_complete E pol info req : (forall f, rq_flow req = Some f -> f_type f <> FDirectGrant) ->
  one (complete E pol info req).
Proof.
  intros HD. unfold complete, complete_code, complete_implicit, complete_hybrid.
  destruct (rq_flow req) as [f|]; [|apply one_panic]. specialize (HD f eq_refl).
  destruct (f_type f); [| | |congruence]; repeat ostep.
Qed.

Lemma one_reusable pol info req (k : bool -> prog bool) :
  (forall b, one (k b)) -> one (bind (consent_reusable pol info req) k).
Proof. intros H. unfold consent_reusable. repeat ostep; apply H. Qed.

Lemma one_show_consent E c req : one (show_consent E c req).
Proof.
  unfold show_consent, call. cbn [bind].
  assert (H : one (Vis (OConsentScreen c req) (fun x => if match x with Some _ => true | None => false end
     then Ret true else callback_failed E req "ShowConsentScreen"))).
  { apply (one_screen (OConsentScreen c req)); [reflexivity|]. intros [u|]; [discriminate|]. intros _.
    right. eauto. }
  intros tr b He. apply (H tr b). apply exec_inv in He. destruct He as (x & tr' & -> & He). constructor.
  destruct x; exact He.
Qed.

Lemma one_after E pol c req mas : (forall f, rq_flow req = Some f -> f_type f <> FDirectGrant) ->
  one (hr_after E pol c req mas).
Proof.
  intros HD.
  assert (HT : one (none_tail E pol req)).
  { unfold none_tail. repeat lazymatch goal with
    | |- one (bind (consent_reusable _ _ _) _) => apply one_reusable; intros []; [apply one_complete; exact HD|]
    | _ => ostep end. }
  assert (HC : one (hr_consent E pol c req)).
  { unfold hr_consent. repeat lazymatch goal with
    | |- one (show_consent _ _ _) => apply one_show_consent
    | |- one (bind (consent_reusable _ _ _) _) =>
        apply one_reusable; intros []; [apply one_complete; exact HD|]
    | _ => ostep end. }
  assert (HL : one (hr_login E pol c req mas)).
  { unfold hr_login, hr_max_age. repeat lazymatch goal with
    | |- one (hr_consent _ _ _ _) => exact HC
    | _ => ostep end. }
  unfold hr_after, hr_none, hr_session, none_session, none_match, jwt_parse.
  repeat lazymatch goal with
  | |- one (none_tail _ _ _) => exact HT
  | |- one (hr_login _ _ _ _ _) => exact HL
  | |- one (Vis (OLoginScreen _) _) => fail
  | |- one (match (if ?b then _ else _) with _ => _ end) => destruct b eqn:?
  | |- one (let '(_, _) := (if ?b then _ else _) in _) => destruct b eqn:?
  | _ => ostep
  end.
  assert (H : one (Vis (OLoginScreen req) (fun x => if match x with Some _ => true | None => false end
     then Ret false else callback_failed E req "ShowLoginScreen"))).
  { apply (one_screen (OLoginScreen req)); [reflexivity|]. intros [u|]; [discriminate|]. intros _.
    left. eauto. }
  intros tr b' He. apply (H tr b'). apply exec_inv in He. destruct He as (y & tr' & -> & He). constructor.
  destruct y; exact He.
Qed.

(** A stage that may stop: it either shows nothing or answers and stops. *)
Definition stage {A} (p : prog (option A)) : Prop := forall tr x, exec p tr (Done x) ->
  match x with Some _ => outcomes tr = [] | None => exists e, outcomes tr = [e] end.

Lemma stage_bind {A} (p : prog (option A)) (k : A -> prog bool) :
  stage p -> (forall a, (exists tr, exec p tr (Done (Some a))) -> one (k a)) ->
  one (bind p (fun x => match x with None => Ret false | Some a => k a end)).
Proof.
  intros Hp Hk tr b H. apply exec_bind in H. destruct H as [(t1 & t2 & x & H1 & H2 & ->)|[_ H]]; [|discriminate].
  pose proof (Hp _ _ H1) as HP. destruct x as [a|].
  - rewrite outcomes_app, HP. apply (Hk a (ex_intro _ t1 H1) _ _ H2).
  - destruct HP as [e HP]. apply exec_inv in H2. destruct H2 as [-> _]. rewrite app_nil_r, HP. left. eauto.
Qed.

Lemma stage_vis {A} o (k : ans o -> prog (option A)) :
  outcome_op o = false -> (forall x, stage (k x)) -> stage (Vis o k).
Proof.
  intros Ho Hk tr b H. apply exec_inv in H. destruct H as (x & tr' & -> & H).
  unfold outcomes. simpl. rewrite Ho. apply (Hk x _ _ H).
Qed.
Lemma stage_ret {A} (a : A) : stage (Ret (Some a)).
Proof. intros tr x H. apply exec_inv in H. destruct H as [-> H]. injection H as ->. reflexivity. Qed.
Lemma stage_panic {A} : @stage A Panic.
Proof. intros tr x H. apply exec_inv in H. destruct H as [_ H]. discriminate. Qed.
Lemma stage_screen {A} n : @stage A (Vis (OErrorScreen n) (fun _ => Ret None)).
Proof.
  intros tr x H. apply exec_inv in H. destruct H as (y & tr' & -> & H). apply exec_inv in H.
  destruct H as [-> H]. injection H as ->. eexists. reflexivity.
Qed.
Lemma stage_early {A} E m u t d s : @stage A (early E m u t d s).
Proof.
  intros tr x H. unfold early, rh_error in H. apply exec_bind in H.
  destruct H as [(t1 & t2 & a & H1 & H2 & ->)|[_ H]]; [|discriminate].
  apply exec_inv in H2. destruct H2 as [-> H2]. injection H2 as ->. rewrite app_nil_r.
  destruct (send_ans1 _ _ _ _ _ _ H1) as (e & He & _). eauto.
Qed.
Lemma stage_stage {A B} (p : prog (option A)) (k : A -> prog (option B)) :
  stage p -> (forall a, stage (k a)) ->
  stage (bind p (fun x => match x with None => Ret None | Some a => k a end)).
Proof.
  intros Hp Hk tr b H. apply exec_bind in H. destruct H as [(t1 & t2 & x & H1 & H2 & ->)|[_ H]]; [|discriminate].
  pose proof (Hp _ _ H1) as HP. destruct x as [a|].
  - rewrite outcomes_app, HP. apply (Hk a _ _ H2).
  - destruct HP as [e HP]. apply exec_inv in H2. destruct H2 as [-> Hb]. injection Hb as ->.
    rewrite app_nil_r, HP. eauto.
Qed.
Lemma stage_silent {A B} (p : prog A) (k : A -> prog (option B)) :
  silent0 p -> (forall a, stage (k a)) -> stage (bind p k).
Proof.
  intros Hp Hk tr b H. apply exec_bind in H. destruct H as [(t1 & t2 & a & H1 & H2 & ->)|[_ H]]; [|discriminate].
  rewrite outcomes_app, (Hp _ _ H1). apply (Hk a _ _ H2).
Qed.

Ltac gstep :=
  lazymatch goal with
  | |- stage Panic => apply stage_panic
  | |- stage (Ret (Some _)) => apply stage_ret
  | |- stage (early _ _ _ _ _ _) => apply stage_early
  | |- stage (Vis (OErrorScreen _) _) => apply stage_screen
  | |- stage (Vis _ _) => apply stage_vis; [reflexivity|]; let x := fresh "x" in intros x; cbn beta
  | |- stage ?p =>
      let q := head p in
      lazymatch q with
      | Ret _ => cbn [bind]
      | Vis _ _ => cbn [bind]
      | call _ => unfold call; cbn [bind]
      | logm _ _ _ => unfold logm, call; cbn [bind]
      | match ?x with _ => _ end => destruct x eqn:?; cbn [negb fst snd]
      end
  end.

Lemma silent_offline pol f p s : silent0 (offline_scope pol f p s).
Proof.
  intros tr a H. unfold offline_scope, logm, call in H.
  repeat match type of H with exec (if ?b then _ else _) _ _ => destruct b end; cbn [bind] in H;
  repeat (apply exec_inv in H; destruct H as (? & ? & -> & H)); apply exec_inv in H; destruct H as [-> _]; reflexivity.
Qed.

Lemma one_handle E pol r : one (handle_request E pol r).
Proof.
  unfold handle_request.
  assert (H1 : stage (hr_client r)) by (unfold hr_client; cbv zeta; repeat gstep).
  assert (H2 : forall ruri state, stage (hr_mode E pol r ruri state)).
  { intros ruri state. unfold hr_mode. cbv zeta.
    repeat lazymatch goal with
    | |- stage (bind _ (fun x => match x with None => Ret None | Some _ => _ end)) =>
        apply stage_stage; [|intros ?]
    | _ => gstep end. }
  assert (H3 : forall c cid ruri state f rmode rt, stage (hr_params E pol r c cid ruri state f rmode rt)).
  { intros. unfold hr_params. cbv zeta.
    repeat lazymatch goal with
    | |- stage (bind (if ?b then logm _ _ _ else Ret tt) _) =>
        apply stage_silent; [intros ? ? HS; unfold logm, call in HS; destruct b;
          [apply exec_inv in HS; destruct HS as (? & ? & -> & HS)|]; apply exec_inv in HS;
          destruct HS as [-> _]; reflexivity|intros ?]
    | |- stage (bind (offline_scope _ _ _ _) _) => apply stage_silent; [apply silent_offline|intros ?]
    | _ => gstep end. }
  intros tr b He. pose proof He as HX. revert tr b He HX.
  assert (HO : one (handle_request E pol r)).
  { unfold handle_request.
    assert (HE : forall tr b, exec (handle_request E pol r) tr (Done b) ->
      exec (bind (hr_client r) (fun x => match x with None => Ret false | Some y =>
        (let '(c, cid, ruri) := y in
         bind (hr_mode E pol r ruri (form_value r "state")) (fun x => match x with None => Ret false | Some z =>
          (let '(f, rmode, rt) := z in
           bind (hr_params E pol r c cid ruri (form_value r "state") f rmode rt)
             (fun x => match x with None => Ret false | Some req => hr_after E pol c req (form_value r "max_age") end)) end)) end)) tr (Done b)).
    { intros tr b H. unfold handle_request in H.
      apply exec_bind in H. apply exec_bind. destruct H as [(t1 & t2 & a & Ha & Hb & ->)|H]; [left|right; exact H].
      exists t1, t2, a. split; [exact Ha|]. split; [|reflexivity].
      destruct a as [[[c cid] ruri]|]; [|exact Hb]. cbv zeta in Hb.
      apply exec_bind in Hb. apply exec_bind. destruct Hb as [(t3 & t4 & a & Hc & Hd & ->)|H]; [left|right; exact H].
      exists t3, t4, a. split; [exact Hc|]. split; [|reflexivity].
      destruct a as [[[f rmode] rt]|]; exact Hd. }
    intros tr b H. apply HE in H. revert H. revert tr b.
    apply stage_bind; [exact H1|]. intros [[c cid] ruri] (tr1 & K1).
    pose proof (wp_exec _ _ _ _ _ (hr_client_wp r) K1) as (-> & -> & HA & _).
    apply stage_bind; [apply H2|]. intros [[f rmode] rt] (tr2 & K2).
    pose proof (wp_exec _ _ _ _ _ (hr_mode_wp E pol r _ _) K2) as (_ & -> & HF & HM).
    apply stage_bind; [apply H3|]. intros req (tr3 & K3).
    pose proof (wp_exec _ _ _ _ _ (hr_params_wp E pol r c f rmode HF HM (proj1 (proj2 (proj2 HA)))) K3)
      as (_ & HV & HQ & _).
    apply one_after. intros f' Hf. rewrite HQ in Hf. injection Hf as <-. apply (asks_not_direct _ _ HF). }
  intros tr b He _. apply (HO tr b He).
Qed.
