(** * Proofs about the authorization endpoint: who is asked what, and when. *)
From Coq Require Import Lia.
From Verif Require Import WpTac Sha Utils Assertion IdToken AuthzResponse AuthzEndpoint TokenSpec AuthzSpec
  UtilsFacts AuthzFacts.

Definition screen_shown (req : arequest) (t : list event) : Prop :=
  exists o, In o (ops t) /\ (o = OLoginScreen req \/ exists c, o = OConsentScreen c req).

Definition after_post (E : env) (pol : policy) (req : arequest) : post bool := fun t r =>
  match r with
  | Done _ =>
      (http_ops t = [] /\ screen_shown req t) \/
      (exists typ, done_error req typ t) \/
      (exists info pre tc, t = (pre ++ tc)%list /\ http_ops pre = [] /\ completed E pol (Some info) req tc)
  | Panicked => http_ops t = []
  end.

Lemma error_sent_app mode uri state typ h t : http_ops h = [] ->
  error_sent mode uri state typ t -> error_sent mode uri state typ (h ++ t)%list.
Proof.
  intros H (desc & params & (pre & ta & -> & H1 & H2) & H3). exists desc, params. split; [|exact H3].
  exists (h ++ pre)%list, ta. rewrite app_assoc, http_ops_app, H, H1. auto.
Qed.

Lemma after_post_app E pol req h t r : http_ops h = [] ->
  after_post E pol req t r -> after_post E pol req (h ++ t)%list r.
Proof.
  intros H. unfold after_post. destruct r as [b|].
  - intros [[H1 (o & H2 & H3)]|[(typ & H1)|(info & pre & tc & -> & H1 & H2)]].
    + left. rewrite http_ops_app, H, H1. split; auto. exists o. split; auto.
      unfold ops. rewrite map_app. apply in_or_app. auto.
    + right. left. exists typ. apply error_sent_app; auto.
    + right. right. exists info, (h ++ pre)%list, tc. rewrite app_assoc, http_ops_app, H, H1. auto.
  - intros H1. rewrite http_ops_app, H, H1. reflexivity.
Qed.

(** When each of the interesting operations may be performed. *)
Definition stage_guard (pol : policy) (c : client) (req : arequest) (login shown : list event -> Prop)
  (issue : authinfo -> list event -> Prop) : guard := fun h o =>
  match o with
  | OLoginScreen q => q = req /\ login h
  | OConsentScreen c' q => c' = c /\ q = req /\ shown h
  | OCreateCode => exists info, issue info h
  | OCreateSession i s => exists info, i = Some info /\ issue info h /\ session_for pol req s h
  | OCreateToken i b => exists info, i = Some info /\ b = false /\ issue info h
  | OFindClient cid | OFindInfo _ cid => cid = rq_client req
  | OIssuer | OAuthTime | OConfirmLogin | OFromLogin | OMatchSubject _ | OLoginUser | ONow | OJwtNow
  | OLog _ _ _ | OSetHeader _ _ | OStatus _ | OBody _ | ORedirect _ | OMapOrder _ => True
  | _ => False
  end.

Lemma stage_free pol c req login shown issue : free (stage_guard pol c req login shown issue).
Proof.
  intros h o [H|[[m ->]|(a & b & d & ->)]]; [|exact I|exact I].
  destruct o; simpl in H; try discriminate; exact I.
Qed.

Lemma stage_frame pol c req l s i (l' s' : list event -> Prop) (i' : authinfo -> list event -> Prop) h p E :
  wp (stage_guard pol c req l s i) (after_post E pol req) [] p -> http_ops h = [] ->
  (forall t, l t -> l' (h ++ t)%list) -> (forall t, s t -> s' (h ++ t)%list) ->
  (forall info t, i info t -> i' info (h ++ t)%list) ->
  wp (stage_guard pol c req l' s' i') (after_post E pol req) h p.
Proof.
  intros H H0 Hl Hs Hi. eapply wp_frame; [exact H| |].
  - intros t o HO. destruct o; simpl in *; auto.
    + destruct HO as (info & H1 & H2 & H3). exists info. auto.
    + destruct HO as (info & H1 & H2 & H3). exists info. split; [auto|]. split; [auto|].
      destruct H3 as (a & code & at_ & -> & H3). exists (h ++ a)%list, code, at_. rewrite app_assoc. auto.
    + destruct HO. auto.
    + destruct HO as (H1 & H2 & H3). auto.
    + destruct HO as (info & HO). exists info. auto.
  - intros t r HQ. apply after_post_app; auto.
Qed.

(** Completing, once the consent of [info] is on record in [h]. *)
Lemma complete_stage c req l s (i : authinfo -> list event -> Prop) h info E pol f :
  rq_flow req = Some f -> f_type f <> FDirectGrant ->
  http_ops h = [] -> (forall t, i info (h ++ t)%list) ->
  wp (stage_guard pol c req l s i) (after_post E pol req) h (complete E pol (Some info) req).
Proof.
  intros HF HT H0 Hi. eapply wp_frame; [apply complete_wp| |].
  - intros t o HO. destruct o; simpl in *; auto; try contradiction.
    + destruct HO as [-> ->]. exists info. auto.
    + destruct HO as [-> HO]. exists info. split; [auto|]. split; [auto|].
      destruct HO as (a & code & at_ & -> & H3). exists (h ++ a)%list, code, at_. rewrite app_assoc. auto.
    + exists info. auto.
  - intros t [[]|] HQ; unfold complete_post, after_post in *.
    + right. right. exists info, h, t. auto.
    + right. left. exists "server_error". destruct HQ as [HQ|(f' & H1 & H2 & _)].
      * apply error_sent_app; auto.
      * congruence.
    + rewrite http_ops_app, H0, HQ. reflexivity.
Qed.

Ltac astep :=
  lazymatch goal with
  | |- wp _ _ _ (answer_error _ _ _ _) =>
      apply wp_answer_error; [apply stage_free|simpl; tauto
        |let t := fresh "t" in let Ht := fresh "Ht" in intros t Ht; right; left; eexists; apply Ht; first [reflexivity|assumption]|first [reflexivity|assumption]]
  | |- wp _ _ _ (callback_failed _ _ _) => unfold callback_failed
  | |- wp _ _ _ (Vis _ _) => apply wp_vis; [try exact I; try reflexivity|intro; cbn beta]
  | _ => wp_step
  end.

Definition consent_issue (pol : policy) (req : arequest) : authinfo -> list event -> Prop :=
  fun info h => consent_on_record pol req info h.

Lemma has_word_include s w : scope_include s w = true <-> has_word s w.
Proof.
  destruct (words_exist_unique s) as (l & HW & HU). rewrite (scope_include_spec _ _ w HW).
  split.
  - intros H. exists l. auto.
  - intros (l' & H1 & H2). apply HU in H1. subst. auto.
Qed.

Lemma same_words_spec a b : scope_same a b = true -> same_words a b.
Proof.
  intros H. destruct (words_exist_unique a) as (la & HA & _). destruct (words_exist_unique b) as (lb & HB & _).
  exists la, lb. split; auto. split; auto. apply (scope_same_spec _ _ _ _ HA HB). exact H.
Qed.

(** [consent_reusable] followed by [k]. *)
Lemma reusable_wp c req l s (i : authinfo -> list event -> Prop) pol info h uid E f k :
  rq_flow req = Some f -> f_type f <> FDirectGrant -> http_ops h = [] ->
  (forall h', (exists a, h = (a ++ [Ev OLoginUser (Some uid);
                    Ev (OFindInfo uid (rq_client req)) (Some info, None)])%list) ->
     consent_on_record pol req info (h ++ h')%list -> i info (h ++ h')%list) ->
  (exists a, h = (a ++ [Ev OLoginUser (Some uid); Ev (OFindInfo uid (rq_client req)) (Some info, None)])%list) ->
  (forall h', http_ops (h ++ h')%list = [] ->
     wp (stage_guard pol c req l s i) (after_post E pol req) (h ++ h')%list k) ->
  wp (stage_guard pol c req l s i) (after_post E pol req) h
    (ok <- consent_reusable pol info req ;; if ok then complete E pol (Some info) req else k).
Proof.
  intros HF HT H0 Hi HE Hk. unfold consent_reusable.
  destruct (ai_active info && scope_same (ai_scope info) (rq_scope req))%bool eqn:EA.
  - unfold call. cbn [bind]. apply wp_vis; [exact I|]. intros now. cbn beta.
    assert (HH : http_ops (h ++ [Ev ONow now])%list = []) by (rewrite http_ops_app, H0; reflexivity).
    destruct (now <? add64 (ai_authorized_at info) (p_consent_period pol))%Z eqn:EN.
    + eapply complete_stage; eauto. intros t. rewrite <- app_assoc. apply Hi; auto.
      destruct HE as [a ->]. apply andb_true_iff in EA. destruct EA as [EA1 EA2].
      exists uid, now. split; [|split; [auto|split; [apply same_words_spec; auto|apply Z.ltb_lt; auto]]].
      exists a, t. rewrite <- !app_assoc. reflexivity.
    + apply Hk. exact HH.
  - cbn [bind]. replace h with (h ++ [])%list by apply app_nil_r. apply Hk. rewrite app_nil_r. auto.
Qed.

Definition nope : list event -> Prop := fun _ => False.
Definition sure : list event -> Prop := fun _ => True.

Lemma none_tail_wp E pol c req f :
  rq_flow req = Some f -> f_type f <> FDirectGrant ->
  wp (stage_guard pol c req nope nope (fun info h => consent_on_record pol req info h))
     (after_post E pol req) [] (none_tail E pol req).
Proof.
  intros HF HT. unfold none_tail.
  repeat lazymatch goal with
  | |- wp _ _ _ (bind (consent_reusable _ _ _) _) => fail
  | _ => astep
  end; hist.
  subst. eapply reusable_wp; eauto.
  - exists []. reflexivity.
  - intros h' Hh. repeat astep.
Qed.

Lemma show_consent_wp E pol c req l (s : list event -> Prop) i h :
  http_ops h = [] -> s h ->
  wp (stage_guard pol c req l s i) (after_post E pol req) h (show_consent E c req).
Proof.
  intros H0 Hs. unfold show_consent. unfold call. cbn [bind].
  apply wp_vis; [simpl; auto|]. intros x. cbn beta.
  assert (HH : http_ops (h ++ [Ev (OConsentScreen c req) x])%list = [])
    by (rewrite http_ops_app, H0; reflexivity).
  destruct x as [u|].
  - apply wp_ret. left. split; auto. exists (OConsentScreen c req). split; [|eauto].
    unfold ops. rewrite map_app. apply in_or_app. right. left. reflexivity.
  - unfold callback_failed. astep. astep.
    assert (HH2 : forall e, is_http (ev_op e) = false ->
       http_ops ((h ++ [Ev (OConsentScreen c req) None]) ++ [e])%list = []).
    { intros e He. rewrite http_ops_app, HH. unfold http_ops, ops. simpl. rewrite He. reflexivity. }
    apply wp_answer_error; [apply stage_free|simpl; tauto| |apply HH2; reflexivity].
    intros t Ht. right. left. eexists. apply Ht. apply HH2. reflexivity.
Qed.

Lemma hr_consent_wp E pol c req f :
  rq_flow req = Some f -> f_type f <> FDirectGrant ->
  wp (stage_guard pol c req nope sure
       (fun info h => consent_on_record pol req info h /\ may_omit c req))
     (after_post E pol req) [] (hr_consent E pol c req).
Proof.
  intros HF HT. unfold hr_consent.
  destruct (include_consent (rq_prompt req)) eqn:EC; [apply show_consent_wp; [reflexivity|exact I]|].
  assert (HC : ~ has_word (rq_prompt req) "consent").
  { intros H. apply has_word_include in H. change (scope_include (rq_prompt req) "consent" = false) in EC.
    congruence. }
  destruct (c_no_consent c) eqn:EN; try (apply show_consent_wp; [reflexivity|exact I]).
  assert (HO : may_omit c req) by (split; auto).
  repeat lazymatch goal with
  | |- wp _ _ _ (bind (consent_reusable _ _ _) _) => fail
  | |- wp _ _ _ (show_consent _ _ _) => apply show_consent_wp; [reflexivity|exact I]
  | _ => astep
  end; hist.
  subst. eapply reusable_wp; eauto.
  - exists []. reflexivity.
  - intros h' Hh. apply show_consent_wp; [exact Hh|exact I].
Qed.

Lemma consent_on_record_app pol req info h t :
  consent_on_record pol req info t -> consent_on_record pol req info (h ++ t)%list.
Proof. intros (uid & now & H1 & H2). exists uid, now. split; [apply segment_app_r; auto|auto]. Qed.

Lemma hr_max_age_wp E pol c req mas f :
  rq_flow req = Some f -> f_type f <> FDirectGrant ->
  wp (stage_guard pol c req sure (fresh_login req)
       (fun info h => consent_on_record pol req info h /\ may_omit c req /\
                      fresh_login req h))
     (after_post E pol req) [] (hr_max_age E pol c req mas).
Proof.
  intros HF HT. unfold hr_max_age. astep. astep. astep; [|repeat astep].
  astep.
  - astep. astep. cbv zeta. astep.
    + repeat astep; hist; try (split; [reflexivity|exact I]).
      left. split; [reflexivity|]. exists (OLoginScreen req). split; [simpl; auto|auto].
    + assert (HL : forall t, fresh_login req ((([] ++ [Ev OAuthTime (Some z)]) ++ [Ev ONow x0]) ++ t)%list).
      { intros t _. exists z, x0. split; [exists [], t; reflexivity|]. apply Z.ltb_ge. exact Heqb0. }
      subst. eapply stage_frame; [eapply hr_consent_wp; eauto|reflexivity|intros t []| |].
      * intros t _. apply HL.
      * intros info t [H1 H2]. split; [apply consent_on_record_app; auto|]. split; [auto|apply HL].
  - assert (HL : forall t, fresh_login req (([] ++ [Ev OAuthTime (Some z)]) ++ t)%list).
    { intros t H. apply Z.ltb_ge in Heqb. exfalso. apply (Z.lt_irrefl 0). eapply Z.lt_le_trans; eauto. }
    subst. eapply stage_frame; [eapply hr_consent_wp; eauto|reflexivity|intros t []| |].
    + intros t _. apply HL.
    + intros info t [H1 H2]. split; [apply consent_on_record_app; auto|]. split; [auto|apply HL].
Qed.

Lemma fresh_login_app req h t : fresh_login req t -> fresh_login req (h ++ t)%list.
Proof. intros H H0. destruct (H H0) as (a & n & H1 & H2). exists a, n. split; [apply segment_app_r; auto|auto]. Qed.
Lemma relogin_app req h t : relogin req t -> relogin req (h ++ t)%list.
Proof. intros H H0. apply in_or_app. right. auto. Qed.

Lemma hr_login_wp E pol c req mas f :
  rq_flow req = Some f -> f_type f <> FDirectGrant ->
  wp (stage_guard pol c req sure (fun h => fresh_login req h /\ relogin req h)
       (fun info h => consent_on_record pol req info h /\ may_omit c req /\
                      fresh_login req h /\ relogin req h))
     (after_post E pol req) [] (hr_login E pol c req mas).
Proof.
  intros HF HT. unfold hr_login.
  destruct (include_login (rq_prompt req)) eqn:EL.
  - astep. astep. astep; [astep|repeat astep].
    + assert (HL : forall t, relogin req (([] ++ [Ev OFromLogin (Some true)]) ++ t)%list).
      { intros t _. left. reflexivity. }
      subst. eapply stage_frame; [eapply hr_max_age_wp; eauto|reflexivity|auto| |].
      * intros t H. split; [apply fresh_login_app; auto|apply HL].
      * intros info t (H1 & H2 & H3).
        split; [apply consent_on_record_app; auto|]. split; [auto|]. split; [apply fresh_login_app; auto|auto].
    + repeat astep; hist; try (split; [reflexivity|exact I]).
      left. split; [reflexivity|]. exists (OLoginScreen req). split; [simpl; auto|auto].
  - assert (HL : forall t, relogin req t).
    { intros t H. exfalso. apply has_word_include in H.
      change (scope_include (rq_prompt req) "login" = false) in EL. congruence. }
    eapply (stage_frame pol c req _ _ _ _ _ _ []); [eapply hr_max_age_wp; eauto|reflexivity|auto| |].
    * intros t H. split; auto.
    * intros info t (H1 & H2 & H3). auto.
Qed.

Lemma login_confirmed_app h t : login_confirmed t -> login_confirmed (h ++ t)%list.
Proof. intros H. apply in_or_app. auto. Qed.

Lemma hr_session_wp E pol c req mas f :
  rq_flow req = Some f -> f_type f <> FDirectGrant ->
  wp (stage_guard pol c req sure (fun h => login_confirmed h /\ fresh_login req h /\ relogin req h)
       (fun info h => consent_on_record pol req info h /\ may_omit c req /\
                      login_confirmed h /\ fresh_login req h /\ relogin req h))
     (after_post E pol req) [] (hr_session E pol c req mas).
Proof.
  intros HF HT. unfold hr_session. astep. astep. astep; [astep|repeat astep].
  - subst. eapply stage_frame; [eapply hr_login_wp; eauto|reflexivity|auto| |].
    + intros t (H1 & H2). split; [left; reflexivity|].
      split; [apply fresh_login_app|apply relogin_app]; auto.
    + intros info t (H1 & H2 & H3 & H4).
      split; [apply consent_on_record_app; auto|]. split; [auto|]. split; [left; reflexivity|].
      split; [apply fresh_login_app|apply relogin_app]; auto.
  - repeat astep; hist; try (split; [reflexivity|exact I]).
    left. split; [reflexivity|]. exists (OLoginScreen req). split; [simpl; auto|auto].
Qed.

Lemma none_words p : p = "none" -> ~ has_word p "login" /\ ~ has_word p "consent".
Proof.
  intros ->. split; intros H; apply has_word_include in H; discriminate.
Qed.

Lemma hr_none_wp E pol c req mas f :
  rq_flow req = Some f -> f_type f <> FDirectGrant -> rq_prompt req = "none" ->
  wp (stage_guard pol c req (fun _ => c_none c = NoneOther)
       (fun h => c_none c = NoneOther /\ fresh_login req h)
       (fun info h => consent_on_record pol req info h /\ none_policy (e_jwt E) c req h /\
                      (c_none c = NoneOther -> fresh_login req h /\ may_omit c req)))
     (after_post E pol req) [] (hr_none E pol c req mas).
Proof.
  intros HF HT HP. unfold hr_none, none_policy, none_session, none_match, jwt_parse.
  destruct (c_none c) eqn:EC.
  - repeat astep.
  - repeat lazymatch goal with
    | |- wp _ _ _ (none_tail _ _ _) => fail
    | _ => astep
    end. subst.
    eapply stage_frame; [eapply none_tail_wp; eauto|reflexivity|intros t []|intros t []|].
    intros info t H. split; [apply consent_on_record_app; auto|].
    split; [left; reflexivity|discriminate].
  - repeat lazymatch goal with
    | |- wp _ _ _ (none_tail _ _ _) => fail
    | _ => astep; sdestruct
    end. subst.
    eapply stage_frame; [eapply none_tail_wp; eauto|reflexivity|intros t []|intros t []|].
    intros info t H. split; [apply consent_on_record_app; auto|].
    split; [|discriminate]. split; [auto|]. split; [left; reflexivity|right; left; reflexivity].
  - repeat lazymatch goal with
    | |- wp _ _ _ (none_tail _ _ _) => fail
    | |- wp _ _ _ (match (if ?b then _ else _) with _ => _ end) => destruct b eqn:?
    | |- wp _ _ _ (let '(_, _) := (if ?b then _ else _) in _) => destruct b eqn:?
    | _ => astep; sdestruct
    end.
    all: try (subst; eapply stage_frame; [eapply none_tail_wp; eauto|reflexivity|intros t' []|intros t' []|]).
    intros info t' HI. split; [apply consent_on_record_app; exact HI|]. split; [|discriminate].
    exists x, s. split; [|split; [left; reflexivity|right; left; reflexivity]].
    exists t, k. split; [auto|]. split; [auto|]. split; [destruct (c_key c); congruence|].
    split; [|auto]. unfold current. destruct (jl_claims (e_jwt E) x (jt_claims t)); simpl in *. congruence.
  - change (wp (stage_guard pol c req (fun _ => NoneOther = NoneOther)
       (fun h => NoneOther = NoneOther /\ fresh_login req h)
       (fun info h => consent_on_record pol req info h /\ True /\
                      (NoneOther = NoneOther -> fresh_login req h /\ may_omit c req)))
     (after_post E pol req) [] (hr_login E pol c req mas)).
    eapply (stage_frame pol c req _ _ _ _ _ _ []); [eapply hr_login_wp; eauto|reflexivity|auto| |].
    + intros t [H _]. auto.
    + intros info t (H1 & H2 & H3 & H4). auto.
Qed.

Lemma hr_after_wp E pol c req mas f :
  rq_flow req = Some f -> f_type f <> FDirectGrant ->
  wp (stage_guard pol c req (fun _ => ~ silent c req) (may_ask c req) (may_issue (e_jwt E) pol c req))
     (after_post E pol req) [] (hr_after E pol c req mas).
Proof.
  intros HF HT. unfold hr_after, silent, may_ask, may_issue, PNone.
  destruct (rq_prompt req =s? "none") eqn:EP; sdestruct.
  - destruct (none_words _ EP) as [HW1 HW2].
    eapply (stage_frame pol c req _ _ _ _ _ _ []); [eapply hr_none_wp; eauto|reflexivity| | |]; cbn [app].
    + intros t H [_ H']. auto.
    + intros t [H1 H2]. split; [intros [_ H']; auto|]. split; [congruence|]. split; [|auto].
      intros H. contradiction.
    + intros info t (H1 & H2 & H3).
      assert (HX : ~ (rq_prompt req = "none" /\ c_none c <> NoneOther) -> c_none c = NoneOther).
      { intros H. destruct (c_none c) eqn:EN; auto; exfalso; apply H; (split; [assumption|congruence]). }
      split; [auto|]. split; [auto|]. split; [intros H; apply H3, HX, H|]. split; [auto|]. split; [congruence|].
      split; [intros H; contradiction|]. intros H. apply H3, HX, H.
  - eapply (stage_frame pol c req _ _ _ _ _ _ []); [eapply hr_session_wp; eauto|reflexivity| | |]; cbn [app].
    + intros t _ [H _]. auto.
    + intros t (H1 & H2 & H3). split; [intros [H _]; auto|]. auto.
    + intros info t (H1 & [H2 H2'] & H3 & H4 & H5). repeat (split; [auto; congruence|]). auto.
Qed.
