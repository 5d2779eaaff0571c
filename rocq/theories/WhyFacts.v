(** * What the errors of the authorization endpoint say. *)
From Coq Require Import Lia.
From Verif Require Import WpTac Sha Utils OAuthError Assertion IdToken AuthzResponse AuthzEndpoint TokenSpec AuthzSpec FlowSpec
  UtilsFacts AuthzFacts AuthzDecide AuthzValidate AuthzProofs AuthzMore ReasonFacts WhySpec.

(** ** Sending *)

Lemma wp_early_why {A} (Q : post (option A)) E mode ruri typ desc state h :
  http_ops h = [] ->
  (forall t, reported mode ruri state typ desc (h ++ t)%list -> Q (h ++ t)%list (Done None)) ->
  Q h Panicked ->
  wp gtrue Q h (early E mode ruri typ desc state).
Proof.
  intros H0 HK HP. unfold early, rh_error. apply wp_send; [apply gtrue_free| |exact HP].
  intros ta HS. apply wp_ret. apply HK. exists (error_params typ desc state).
  split; [|apply error_params_holds]. exists h, ta. auto.
Qed.

Definition says (req : arequest) (typ desc : string) (t : list event) : Prop :=
  reported (rq_mode req) (rq_redirect req) (rq_state req) typ desc t.

Lemma wp_answer_why (Q : post bool) E req typ desc h :
  http_ops h = [] ->
  (forall t, says req typ desc (h ++ t)%list -> Q (h ++ t)%list (Done false)) ->
  Q h Panicked ->
  wp gtrue Q h (answer_error E req typ desc).
Proof.
  intros H0 HK HP. unfold answer_error, rh_error, kind_of. apply wp_send; [apply gtrue_free| |exact HP].
  intros ta HS. apply wp_ret. apply HK. exists (error_params typ desc (rq_state req)).
  split; [|apply error_params_holds]. exists h, ta. auto.
Qed.

Lemma answered_app mode uri params h t :
  http_ops h = [] -> answered mode uri params t -> answered mode uri params (h ++ t)%list.
Proof.
  intros H0 (pre & ta & -> & H1 & H2). exists (h ++ pre)%list, ta. rewrite app_assoc. split; [auto|].
  split; [rewrite http_ops_app, H0, H1; reflexivity|auto].
Qed.
Lemma reported_app mode uri state typ desc h t :
  http_ops h = [] -> reported mode uri state typ desc t -> reported mode uri state typ desc (h ++ t)%list.
Proof. intros H0 (ps & H1 & H2). exists ps. split; [apply answered_app; auto|auto]. Qed.

(** ** Errors while completing have no description *)

Definition plain (req : arequest) : post bool := fun t x =>
  match x with Done false => says req "server_error" "" t | _ => True end.

Lemma plain_error E req h : http_ops h = [] -> wp gtrue (plain req) h (answer_error E req "server_error" "").
Proof. intros H0. apply wp_answer_why; [auto| |exact I]. auto. Qed.
Lemma plain_failed E req method h : http_ops h = [] -> wp gtrue (plain req) h (callback_failed E req method).
Proof. intros H0. unfold callback_failed, logm. rcall. apply plain_error. http0. Qed.
Lemma plain_success E req params h :
  wp gtrue (plain req) h (rh_success E (kind_of req) (rq_redirect req) params ;;; Ret true).
Proof. unfold kind_of. apply wp_send; [apply gtrue_free| |exact I]. intros. exact I. Qed.

Ltac plain1 :=
  first [ exact I
        | apply plain_error; http0
        | apply plain_failed; http0
        | apply plain_success
        | match goal with |- wp _ _ _ (bind (call _) _) => rcall end
        | match goal with |- wp _ _ _ (Vis _ _) => rcall end
        | match goal with |- wp _ _ _ (match ?x with _ => _ end) => destruct x end
        | match goal with |- wp _ _ _ (let (_, _) := ?x in _) => destruct x end ].

Lemma complete_plain E pol info req f h :
  rq_flow req = Some f -> f_type f <> FDirectGrant -> http_ops h = [] ->
  wp gtrue (plain req) h (complete E pol info req).
Proof.
  intros HF HT H0. unfold complete. rewrite HF. destruct (f_type f); [| | |congruence].
  - unfold complete_code. repeat plain1. 
  - unfold complete_implicit. cbv zeta. repeat plain1.
  - unfold complete_hybrid. cbv zeta. repeat plain1.
Qed.

(** ** After validation *)

Lemma late_app E pol r c t u typ desc : late_fault E pol r c t typ desc -> late_fault E pol r c (t ++ u)%list typ desc.
Proof.
  intros [].
  - apply l_failure. intros HC. destruct H as (e & H1 & H2).
    + intros. eapply HC. apply in_left; eauto.
    + exists e. split; auto. apply in_left; auto.
  - apply l_login; auto. apply in_left; auto.
  - apply l_consent; auto. apply no_consent_app; auto.
  - apply l_forbidden; auto.
  - eapply l_no_hint; eauto.
  - apply l_login_hint; auto. apply in_left; auto.
  - apply l_hint_unreadable; auto.
  - apply l_hint_forged; auto.
  - eapply l_hint_time; eauto. apply in_left; auto.
  - eapply l_hint_exp; eauto.
  - eapply l_hint_sub; eauto.
  - eapply l_hint_other; eauto. apply in_left; auto.
Qed.

Lemma late_failed E pol r c t e : In e t -> fatal e -> late_fault E pol r c t "server_error" "".
Proof. intros H1 H2. apply l_failure. intros _. eauto. Qed.

Definition after_w (E : env) (pol : policy) (r : request) (c : client) (req : arequest) : post bool := fun h x =>
  match x with
  | Done b =>
      (http_ops h = [] /\ asked c req b h) \/
      (exists typ desc, says req typ desc h /\ late_fault E pol r c h typ desc /\ b = false) \/
      (exists info pre tc, h = (pre ++ tc)%list /\ http_ops pre = [] /\ completed E pol (Some info) req tc /\
         b = true)
  | Panicked => True
  end.

Lemma answer_why E pol r c req typ desc h :
  http_ops h = [] -> late_fault E pol r c h typ desc ->
  wp gtrue (after_w E pol r c req) h (answer_error E req typ desc).
Proof.
  intros H0 HR. apply wp_answer_why; [auto| |exact I].
  intros t Ht. right. left. exists typ, desc. split; [auto|]. split; [apply late_app; auto|reflexivity].
Qed.

Lemma callback_why E pol r c req h method e :
  http_ops h = [] -> In e h -> fatal e ->
  wp gtrue (after_w E pol r c req) h (callback_failed E req method).
Proof.
  intros H0 HI HF. unfold callback_failed, logm, call. cbn [bind]. apply wp_vis; [exact I|]. intros y. cbn beta.
  apply answer_why; [apply http_snoc; auto|].
  eapply late_failed; [apply in_left; eauto|auto].
Qed.

Lemma complete_why E pol r c req info f h :
  rq_flow req = Some f -> f_type f <> FDirectGrant -> http_ops h = [] ->
  wp gtrue (after_w E pol r c req) h (complete E pol (Some info) req).
Proof.
  intros HF HT H0. apply wp_complete.
  - intros tr res He. pose proof (wp_exec _ _ _ _ _ (complete_wp E pol (Some info) req) He) as HP.
    pose proof (wp_exec _ _ _ _ _ (complete_plain E pol (Some info) req f [] HF HT eq_refl) He) as HD.
    destruct res as [[]|]; unfold complete_post in HP; [| |exact I].
    + right. right. exists info, h, tr. auto.
    + right. left. exists "server_error", "". split; [apply reported_app; auto|].
      split; [|reflexivity]. apply l_failure. intros HC.
      destruct (refuses_complete E pol (Some info) req (fun _ => False)
                  ltac:(intros f' Hf; congruence) tr He) as (e & H1 & H2).
      * intros. eapply HC. apply in_or_app. right. eauto.
      * intros c' [].
      * exists e. split; [apply in_or_app; auto|]. split; [auto|]. intros uid cid i x ->.
        apply in_split in H1. destruct H1 as (t1 & t2 & ->).
        destruct (wp_guard _ _ _ _ _ t1 _ t2 (complete_wp E pol (Some info) req) He eq_refl).
  - intros tr p' _. destruct p'; exact I.
Qed.

Ltac cbw := eapply callback_why; [http0|findin|fatal0].
Ltac aw := apply answer_why; [http0|].

Lemma login_why_post E pol r c req h x :
  http_ops h = [] -> after_w E pol r c req (h ++ [Ev (OLoginScreen req) x])%list (Done false).
Proof. intros H0. left. split; [http0|]. exists x. apply snoc_in. Qed.

Lemma reusable_why E pol r c req f info uid h k :
  vctx pol r c req f -> http_ops h = [] ->
  In (Ev (OFindInfo uid (rq_client req)) (Some info, None)) h ->
  (forall h', http_ops (h ++ h')%list = [] -> no_consent pol r (h ++ h')%list ->
     wp gtrue (after_w E pol r c req) (h ++ h')%list k) ->
  wp gtrue (after_w E pol r c req) h
    (ok <- consent_reusable pol info req ;; if ok then complete E pol (Some info) req else k).
Proof.
  intros HC H0 HI Hk. pose proof (vctx_scope _ _ _ _ _ HC) as HO. destruct HC as (HF & HT & HV & HAF).
  rewrite (v_client _ _ _ _ HV) in HI.
  unfold consent_reusable. destruct (ai_active info) eqn:EA; cbn [andb].
  2: { cbn [bind]. replace h with (h ++ [])%list by apply app_nil_r. apply Hk; [rewrite app_nil_r; auto|].
       rewrite app_nil_r. eapply nc_inactive; eauto. }
  destruct (scope_same (ai_scope info) (rq_scope req)) eqn:ES.
  2: { cbn [bind]. replace h with (h ++ [])%list by apply app_nil_r. apply Hk; [rewrite app_nil_r; auto|].
       rewrite app_nil_r. eapply nc_scope; eauto. intros (la & lb & HA & HB & HP).
       apply (scope_same_spec _ _ _ _ HA HB) in HP. congruence. }
  rcall. assert (HH : http_ops (h ++ [Ev ONow x])%list = []) by http0.
  destruct (x <? add64 (ai_authorized_at info) (p_consent_period pol))%Z eqn:EN.
  - eapply complete_why; eauto.
  - apply Hk; [exact HH|]. eapply nc_old; [apply in_left; eauto|apply snoc_in|]. apply Z.ltb_ge. exact EN.
Qed.

Lemma none_tail_why E pol r c req f h :
  vctx pol r c req f -> form_value r "prompt" = "none" -> http_ops h = [] ->
  wp gtrue (after_w E pol r c req) h (none_tail E pol req).
Proof.
  intros HC HP H0. unfold none_tail. rcall. destruct x as [uid|]; [|cbw]. rcall.
  assert (HI : rq_client req = form_value r "client_id") by apply (v_client _ _ _ _ (proj1 (proj2 (proj2 HC)))).
  assert (HN : forall i e, e <> ErrUnsupported -> e <> ErrServerError ->
     wp gtrue (after_w E pol r c req)
       ((h ++ [Ev OLoginUser (Some uid)]) ++ [Ev (OFindInfo uid (rq_client req)) (i, Some e)])%list
       (answer_error E req "consent_required" "")).
  { intros i e He1 He2. aw. apply l_consent; [auto|]. rewrite HI. eapply nc_none; [findin|auto|auto]. }
  destruct x as [[info|] [[]|]].
  all: try (apply HN; discriminate).
  all: try (aw; eapply late_failed; [findin|fatal0]).
  eapply reusable_why; [eauto|http0|findin|]. intros h' Hh HNC.
  apply answer_why; [auto|]. apply l_consent; auto.
Qed.

Lemma show_consent_why E pol r c req h :
  http_ops h = [] -> wp gtrue (after_w E pol r c req) h (show_consent E c req).
Proof.
  intros H0. unfold show_consent. rcall. destruct x as [u|]; [|cbw].
  destruct u. apply wp_ret. left. split; [http0|]. findin.
Qed.

Lemma hr_consent_why E pol r c req f h :
  vctx pol r c req f -> http_ops h = [] ->
  wp gtrue (after_w E pol r c req) h (hr_consent E pol c req).
Proof.
  intros HC H0. unfold hr_consent. destruct (include_consent (rq_prompt req)); [apply show_consent_why; auto|].
  destruct (c_no_consent c); try (apply show_consent_why; assumption).
  rcall. destruct x as [uid|]; [|cbw]. rcall. destruct x as [[info|] [[]|]].
  all: try (apply show_consent_why; http0).
  all: try (aw; eapply late_failed; [findin|fatal0]).
  eapply reusable_why; [eauto|http0|findin|]. intros h' Hh _. apply show_consent_why. auto.
Qed.

Lemma hr_max_age_why E pol r c req f mas h :
  vctx pol r c req f -> http_ops h = [] ->
  wp gtrue (after_w E pol r c req) h (hr_max_age E pol c req mas).
Proof.
  intros HC H0. unfold hr_max_age. rcall. destruct x as [at_|]; [|cbw].
  destruct (0 <? rq_max_age req)%Z; [|eapply hr_consent_why; [eauto|http0]].
  rcall. cbv zeta. destruct (rq_max_age req <? _)%Z; [|eapply hr_consent_why; [eauto|http0]].
  unfold logm. rcall. rcall. apply wp_ret. apply login_why_post. http0.
Qed.

Lemma hr_login_why E pol r c req f mas h :
  vctx pol r c req f -> http_ops h = [] ->
  wp gtrue (after_w E pol r c req) h (hr_login E pol c req mas).
Proof.
  intros HC H0. unfold hr_login. destruct (include_login (rq_prompt req)); [|eapply hr_max_age_why; eauto].
  rcall. destruct x as [[]|]; [eapply hr_max_age_why; [eauto|http0]| |cbw].
  unfold logm. rcall. rcall. apply wp_ret. apply login_why_post. http0.
Qed.

Lemma hr_session_why E pol r c req f mas h :
  vctx pol r c req f -> http_ops h = [] ->
  wp gtrue (after_w E pol r c req) h (hr_session E pol c req mas).
Proof.
  intros HC H0. unfold hr_session. rcall. destruct x as [[]|]; [eapply hr_login_why; [eauto|http0]| |cbw].
  unfold logm. rcall. rcall. destruct x0 as [u|]; [|cbw]. apply wp_ret. apply login_why_post. http0.
Qed.

Lemma none_session_why E pol r c req f h k :
  vctx pol r c req f -> form_value r "prompt" = "none" -> http_ops h = [] ->
  (forall h', http_ops (h ++ h')%list = [] -> wp gtrue (after_w E pol r c req) (h ++ h')%list k) ->
  wp gtrue (after_w E pol r c req) h (none_session E req k).
Proof.
  intros HC HP H0 Hk. unfold none_session. rcall. destruct x as [[]|]; [apply Hk; http0| |cbw].
  aw. apply l_login; auto. findin.
Qed.

Lemma none_match_why E pol r c req f h sub what k :
  vctx pol r c req f -> form_value r "prompt" = "none" -> http_ops h = [] ->
  (forall t, In (Ev (OMatchSubject sub) (Some false)) t ->
     late_fault E pol r c t "invalid_request" ("'" ++ what ++ "' doesn't match to current login user")) ->
  (forall h', http_ops (h ++ h')%list = [] -> wp gtrue (after_w E pol r c req) (h ++ h')%list k) ->
  wp gtrue (after_w E pol r c req) h (none_match E req sub what k).
Proof.
  intros HC HP H0 HM Hk. unfold none_match. rcall. destruct x as [[]|]; [apply Hk; http0| |cbw].
  aw. apply HM. findin.
Qed.

Lemma hr_none_why E pol r c req f mas h :
  vctx pol r c req f -> form_value r "prompt" = "none" -> http_ops h = [] ->
  wp gtrue (after_w E pol r c req) h (hr_none E pol c req mas).
Proof.
  intros HC HP H0. destruct (v_hints _ _ _ _ (proj1 (proj2 (proj2 HC)))) as [HH1 HH2].
  unfold hr_none. destruct (c_none c) eqn:EN.
  - unfold logm. rcall. aw. apply l_forbidden; auto.
  - eapply none_session_why; eauto. intros. eapply none_tail_why; eauto.
  - destruct (rq_login_hint req =s? "") eqn:EH; sdestruct.
    + aw. apply (l_no_hint E pol r c h "login_hint"); [auto|rewrite EN; simpl; auto|congruence].
    + eapply none_session_why; eauto. intros. eapply none_match_why; eauto.
      * intros t Ht. rewrite HH2 in Ht. apply l_login_hint; auto.
      * intros. eapply none_tail_why; eauto.
  - destruct (rq_idt_hint req =s? "") eqn:EH; sdestruct.
    + aw. apply (l_no_hint E pol r c h "id_token_hint"); [auto|rewrite EN; simpl; auto|congruence].
    + rewrite HH1 in *. unfold jwt_parse.
      destruct (jl_parse (e_jwt E) (form_value r "id_token_hint")) as [| |t] eqn:EP.
      * cbn [bind]. aw. apply l_hint_unreadable; [auto|auto|]. intros t. rewrite EP. discriminate.
      * cbn [bind]. aw. apply l_hint_unreadable; [auto|auto|]. intros t. rewrite EP. discriminate.
      * cbn [bind].
        replace (match c_key c with Some k0 => inr k0 | None => inr (KOther 0) end)
          with (@inr (option oauth_error) key (key_of c)) by (unfold key_of; destruct (c_key c); reflexivity).
        rcall. cbv zeta.
        destruct (jl_verify (e_jwt E) (form_value r "id_token_hint") (key_of c)) eqn:EV; cbn [andb].
        2: { cbn [bind]. aw. apply l_hint_forged; auto. }
        destruct (cf_expired _ || cf_iat _ || cf_nbf _)%bool eqn:ECF; cbn [negb bind].
        { aw. eapply l_hint_time; eauto; [findin|]. intros HCU. unfold current in HCU. rewrite HCU in ECF. discriminate ECF. }
        destruct (Assertion.jint (jt_claims t) "exp") eqn:EE.
        2: { aw. eapply l_hint_exp; eauto. }
        destruct (jstr "sub" (jt_claims t)) as [sub|] eqn:ESB.
        2: { aw. eapply l_hint_sub; eauto. }
        eapply none_match_why; eauto; [http0| |].
        -- intros u Hu. eapply l_hint_other; eauto.
        -- intros. eapply none_tail_why; eauto.
  - eapply hr_login_why; eauto.
Qed.

Lemma hr_after_why E pol r c req f mas h :
  vctx pol r c req f -> http_ops h = [] ->
  wp gtrue (after_w E pol r c req) h (hr_after E pol c req mas).
Proof.
  intros HC H0. unfold hr_after, PNone. destruct (rq_prompt req =s? "none") eqn:EP; sdestruct.
  - eapply hr_none_why; eauto. rewrite <- (proj1 (v_prompt _ _ _ _ (proj1 (proj2 (proj2 HC))))). exact EP.
  - eapply hr_session_why; eauto.
Qed.


(** ** The parameters *)

(** No fault is found before place [n]. *)
Definition clear (pol : policy) (r : request) (c : client) (n : nat) : Prop :=
  forall m t d, param_fault pol r c m t d -> (n <= m)%nat.

Lemma clear_step pol r c n :
  clear pol r c n -> (forall t d, ~ param_fault pol r c n t d) -> clear pol r c (S n).
Proof.
  intros H1 H2 m t d Hf. pose proof (H1 _ _ _ Hf). destruct (Nat.eq_dec n m) as [<-|]; [destruct (H2 _ _ Hf)|lia].
Qed.
Lemma clear_first pol r c n t d : clear pol r c n -> param_fault pol r c n t d -> first_fault pol r c t d.
Proof. intros H1 H2. exists n. split; auto. Qed.
Lemma clear_first_at pol r c n t d : clear pol r c n -> param_fault pol r c n t d -> first_fault_at pol r c n t d.
Proof. intros H1 H2. split; auto. Qed.
Lemma fault_bound pol r c n t d : param_fault pol r c n t d -> (n <= 16)%nat.
Proof. intros []; lia. Qed.

Definition why_mode (pol : policy) (r : request) (c : client) (ruri state : string)
  : post (option (flow * string * string)) := fun t x =>
  match x with
  | Done None => exists m typ desc, reported m ruri state typ desc t /\
      exists n, first_fault_at pol r c n typ desc /\ error_mode pol r n m
  | Done (Some _) => clear pol r c 4
  | Panicked => True
  end.

Lemma early_why pol r c E mode ruri typ desc state h n :
  http_ops h = [] -> first_fault_at pol r c n typ desc -> error_mode pol r n mode ->
  wp gtrue (why_mode pol r c ruri state) h (early E mode ruri typ desc state).
Proof.
  intros H0 HN HM. apply wp_early_why; [auto| |exact I]. intros t Ht. exists mode, typ, desc. eauto.
Qed.

Lemma compare_at_least m d : mode_rank m <> None -> mode_rank d <> None ->
  (rmode_compare m d = true <-> at_least m d).
Proof.
  intros H1 H2. split; [|apply at_least_compare]. unfold rmode_compare. rewrite !mode_rank_level.
  unfold at_least. destruct (mode_rank m) as [a|]; [|congruence]. destruct (mode_rank d) as [b|]; [|congruence].
  intros H. apply Z.leb_le in H. exists a, b. repeat split; auto. lia.
Qed.

Ltac noway := let t := fresh in let d := fresh in let Hf := fresh "Hf" in
  intros t d Hf; inversion Hf; subst.

Lemma hr_mode_why E pol r c ruri state :
  wp gtrue (why_mode pol r c ruri state) [] (hr_mode E pol r ruri state).
Proof.
  unfold hr_mode. cbv zeta. assert (C0 : clear pol r c 0) by (intros m t d _; lia).
  destruct (form_value r "response_type" =s? "") eqn:ER; sdestruct.
  { unfold logm. rcall. eapply early_why; [reflexivity|eapply clear_first_at; [exact C0|constructor; auto]|reflexivity]. }
  assert (C1 : clear pol r c 1) by (apply clear_step; [auto|noway; congruence]). clear C0.
  destruct (judge_response_type (form_value r "response_type")) as [f|] eqn:EJ.
  2: { unfold logm. rcall. eapply early_why; [reflexivity|eapply clear_first_at; [exact C1|constructor; [auto|]]|reflexivity].
       intros f Hf. apply judge_asks in Hf. congruence. }
  apply judge_asks in EJ. pose proof (asks_not_direct _ _ EJ) as HD.
  assert (C2 : clear pol r c 2) by (apply clear_step; [auto|noway; firstorder]). clear C1.
  rewrite (default_mode_flow pol f HD).
  assert (HX : forall f', asks_for r f' -> f' = f) by (intros f' Hf'; apply (asks_unique _ _ _ Hf' EJ)).
  assert (CM : p_ignore_bad_mode pol = true \/ form_value r "response_mode" = "" -> clear pol r c 4).
  { intros HM. assert (HR : form_value r "response_mode" = "" -> mode_rank (form_value r "response_mode") = None)
      by (intros ->; reflexivity).
    apply clear_step; [apply clear_step; [exact C2|]|]; noway; destruct HM; tauto || congruence. }
  destruct (form_value r "response_mode" =s? "") eqn:EM; sdestruct.
  { unfold logm. cbn [bind]. rcall. rewrite compare_refl. destruct (p_level_check pol); apply CM; auto. }
  destruct (rmode_validate (form_value r "response_mode")) eqn:EV.
  { apply rmode_validate_iff in EV.
    assert (C3 : clear pol r c 3) by (apply clear_step; [exact C2|noway; congruence]).
    cbn [bind]. destruct (p_level_check pol) eqn:EL.
    2: { apply wp_ret. apply clear_step; [exact C3|noway; congruence]. }
    destruct (rmode_compare _ _) eqn:EC.
    { apply wp_ret. apply clear_step; [exact C3|noway].
      match goal with H : asks_for r ?f' |- _ => rewrite (HX _ H) in * end.
      match goal with H : ~ at_least _ _ |- _ => apply H; apply compare_at_least; auto end. }
    destruct (p_ignore_bad_mode pol) eqn:EI; [unfold logm; rcall; apply CM; auto|].
    unfold logm. rcall. eapply early_why; [reflexivity|eapply clear_first_at; [exact C3|]|intros f' Hf'; rewrite (HX _ Hf'); reflexivity].
    assert (HDR : mode_rank (flow_default pol f) <> None).
    { intros HN. apply (unknown_compare (form_value r "response_mode")) in HN. congruence. }
    eapply q_level; eauto. intros HL. apply at_least_compare in HL. congruence. }
  destruct (p_ignore_bad_mode pol) eqn:EI.
  { unfold logm. cbn [bind]. rcall. rewrite compare_refl. destruct (p_level_check pol); apply CM; auto. }
  unfold logm. cbn [bind]. rcall. apply wp_bind.
  apply wp_early_why; [reflexivity| |exact I]. intros t Ht. cbv beta iota. apply wp_ret.
  eexists _, _, _. split; [exact Ht|]. exists 2%nat.
  split; [eapply clear_first_at; [exact C2|]; eapply q_mode; eauto|intros f' Hf'; rewrite (HX _ Hf'); reflexivity].
  destruct (mode_rank (form_value r "response_mode")) eqn:EMR; [|reflexivity].
  assert (HV : mode_rank (form_value r "response_mode") <> None) by congruence.
  apply rmode_validate_iff in HV. congruence.
Qed.

Lemma offline_alone_conv s l : words_of s l -> In "offline_access" l ->
  In (filter (fun w => negb (String.eqb w "openid" || String.eqb w "offline_access")) l) [[]; [""]] ->
  slen (remove_offline (remove_openid s)) = 0%Z.
Proof.
  intros HW HI HL. rewrite filter_two in HL.
  destruct (scope_remove_spec s l "openid" HW) as [HR1 HR2].
  set (k := filter (fun w => negb (String.eqb w "openid")) l) in *.
  assert (HK : In "offline_access" k) by (apply filter_In; auto).
  assert (HKN : k <> []) by (intros H; rewrite H in HK; destruct HK).
  specialize (HR2 HKN).
  destruct (scope_remove_spec (scope_remove s "openid") k "offline_access" HR2) as [HS1 HS2].
  assert (HE : remove_offline (remove_openid s) = ""); [|rewrite HE; reflexivity].
  unfold remove_offline, remove_openid, OfflineAccess, OpenID.
  destruct HL as [HL|[HL|[]]].
  - apply HS1. auto.
  - rewrite <- HL in HS2. destruct HS2 as (_ & _ & ->); [discriminate|reflexivity].
Qed.

Lemma offline_rule_fun f p s a b : offline_rule f p s a -> offline_rule f p s b -> a = b.
Proof.
  intros [(H1 & H2 & l & H3 & H4)|[H1 ->]] [(G1 & G2 & m & G3 & G4)|[G1 ->]].
  - rewrite (words_unique _ _ _ G3 H3) in G4. cbv zeta in *.
    destruct (filter _ l) as [|w k].
    + rewrite (proj1 H4), (proj1 G4); reflexivity.
    + destruct (proj2 H4) as (_ & _ & ->); [discriminate|]. destruct (proj2 G4) as (_ & _ & ->); [discriminate|]. reflexivity.
  - exfalso. tauto.
  - exfalso. tauto.
  - reflexivity.
Qed.

Lemma offline_why pol r c f :
  asks_for r f -> clear pol r c 10 ->
  wp gtrue (fun t x => http_ops t = [] /\
     match x with
     | Done (Some s') => offline_rule f (form_value r "prompt") (form_value r "scope") s' /\ clear pol r c 11
     | Done None => first_fault_at pol r c 10 "invalid_request"
         "when you request 'offline_access' scope, you should set other scope except for 'openid'"
     | Panicked => False end)
     [] (offline_scope pol f (form_value r "prompt") (form_value r "scope")).
Proof.
  intros HF HC.
  assert (HX : forall f', asks_for r f' -> f' = f) by (intros f' Hf'; apply (asks_unique _ _ _ Hf' HF)).
  eapply wp_mono; [| |apply wp_and; [apply (offline_wp pol f (form_value r "prompt") (form_value r "scope"))
    |instantiate (1 := fun _ x => match x with
        | Done (Some _) => clear pol r c 11
        | Done None => first_fault_at pol r c 10 "invalid_request"
           "when you request 'offline_access' scope, you should set other scope except for 'openid'"
        | Panicked => False end); instantiate (1 := gtrue)]].
  - intros h o _. exact I.
  - intros h x [[Ha Hb] Hc]. split; [auto|]. destruct x as [[s'|]|]; auto.
  - unfold offline_scope.
    destruct (words_exist_unique (form_value r "scope")) as (l & HW & HU).
    assert (HCO : include_consent (form_value r "prompt") = true <-> has_word (form_value r "prompt") "consent").
    { change (include_consent (form_value r "prompt")) with (scope_include (form_value r "prompt") "consent").
      apply has_word_include. }
    destruct (include_offline (form_value r "scope")) eqn:EO.
    2: { apply wp_ret. apply clear_step; [exact HC|noway].
         match goal with H : has_word (form_value r "scope") _ |- _ => apply has_word_include in H;
           change (include_offline (form_value r "scope") = true) in H; congruence end. }
    assert (HIN : In "offline_access" l).
    { assert (HO : has_word (form_value r "scope") "offline_access") by (apply has_word_include; exact EO).
      destruct HO as (l' & H1 & H2). rewrite (HU _ H1) in H2. exact H2. }
    destruct (flow_eqb (f_type f) FImplicit || negb (include_consent (form_value r "prompt")))%bool eqn:EF.
    { rlog. apply wp_ret. apply clear_step; [exact HC|noway].
      match goal with H : asks_for r ?f' |- _ => rewrite (HX _ H) in * end.
      match goal with H : has_word (form_value r "prompt") _ |- _ => apply HCO in H; rewrite H in EF end.
      destruct (f_type f); [discriminate EF|congruence|discriminate EF|discriminate EF]. }
    apply orb_false_iff in EF. destruct EF as [EF1 EF2]. apply negb_false_iff in EF2.
    destruct (p_allow_empty_scope pol) eqn:EE; cbn [negb].
    { apply wp_ret. apply clear_step; [exact HC|noway]. congruence. }
    destruct (slen _ =? 0)%Z eqn:EZ.
    + rlog. apply wp_ret. eapply clear_first_at; [exact HC|].
      eapply q_offline; eauto.
      * intros H. rewrite H in EF1. discriminate EF1.
      * exists l. auto.
      * apply HCO. exact EF2.
      * eapply offline_alone; eauto. apply Z.eqb_eq. exact EZ.
    + apply wp_ret. apply clear_step; [exact HC|noway].
      apply Z.eqb_neq in EZ. apply EZ.
      match goal with H : In (filter _ ?l0) _, H' : words_of _ ?l0 |- _ => pose proof (HU _ H') as ->;
        exact (offline_alone_conv _ _ HW HIN H) end.
Qed.

Definition why_params (E : env) (pol : policy) (r : request) (c : client) (rmode : string) (h0 : list event)
  : post (option arequest) := fun t x =>
  match x with
  | Done None => exists typ desc, reported rmode (form_value r "redirect_uri") (form_value r "state") typ desc t /\
      ((exists n, first_fault_at pol r c n typ desc /\ (4 <= n)%nat) \/ (clear pol r c 17 /\ late_fault E pol r c (h0 ++ t)%list typ desc))
  | Done (Some _) => clear pol r c 17
  | Panicked => True
  end.

Lemma refused_why E pol r c rmode h0 h n typ desc :
  http_ops h = [] -> clear pol r c n -> (4 <= n)%nat -> param_fault pol r c n typ desc ->
  wp gtrue (why_params E pol r c rmode h0) h
    (early E rmode (form_value r "redirect_uri") typ desc (form_value r "state")).
Proof.
  intros H0 HC Hn HF. apply wp_early_why; [auto| |exact I]. intros t Ht. exists typ, desc. split; [auto|].
  left. exists n. split; [eapply clear_first_at; eauto|auto].
Qed.

Ltac wrefuse n := eapply (refused_why _ _ _ _ _ _ _ n); [http0|assumption|lia|].
Ltac flowx HX := match goal with H : asks_for _ ?f' |- _ => is_var f'; pose proof (HX _ H); subst f' end.
Ltac scopex HS := match goal with H : offline_rule _ _ _ ?s |- _ =>
  lazymatch H with HS => fail | _ => pose proof (offline_rule_fun _ _ _ _ _ H HS); subst s end end.

Lemma hr_params_why E pol r c f rmode h0 :
  asks_for r f -> clear pol r c 4 ->
  wp gtrue (why_params E pol r c rmode h0) []
    (hr_params E pol r c (form_value r "client_id") (form_value r "redirect_uri") (form_value r "state")
       f rmode (form_value r "response_type")).
Proof.
  intros HF C4. unfold hr_params. cbv zeta.
  assert (H0 : @http_ops [] = []) by reflexivity.
  assert (HX : forall f', asks_for r f' -> f' = f) by (intros f' Hf'; apply (asks_unique _ _ _ Hf' HF)).
  destruct (c_can_flow c (f_type f)) eqn:E1; cbn [negb].
  2: { rlog. wrefuse 4%nat. eapply q_flow; eauto. }
  assert (C5 : clear pol r c 5) by (apply clear_step; [auto|noway; flowx HX; congruence]).
  destruct (negb (form_value r "display" =s? "") && negb (display_ok (form_value r "display")))%bool eqn:E2.
  { rlog. wrefuse 5%nat. apply andb_true_iff in E2. destruct E2 as [E2 E2']. apply negb_true_iff in E2, E2'. sdestruct.
    apply q_display; [auto|]. intros HD. apply display_iff in HD. congruence. }
  assert (C6 : clear pol r c 6).
  { apply clear_step; [auto|noway]. apply andb_false_iff in E2. destruct E2 as [E2|E2]; apply negb_false_iff in E2; sdestruct.
    - congruence.
    - apply display_iff in E2. tauto. }
  assert (CA : (exists desc attrs, max_age_check pol (form_value r "max_age") = inl (desc, attrs) /\
                  exists n, first_fault_at pol r c n "invalid_request" desc /\ (4 <= n)%nat) \/
               (exists ma, max_age_check pol (form_value r "max_age") = inr ma /\ clear pol r c 9)).
  { unfold max_age_check. destruct (form_value r "max_age" =s? "") eqn:E3; sdestruct.
    { right. eexists. split; [reflexivity|].
      assert (HN : atoi (form_value r "max_age") = None) by (rewrite E3; reflexivity).
      apply clear_step; [apply clear_step; [apply clear_step; [auto|]|]|]; noway; congruence. }
    destruct (atoi (form_value r "max_age")) as [ma|] eqn:EA.
    2: { left. eexists _, _. split; [reflexivity|]. exists 6%nat. split; [|lia]. eapply clear_first_at; [exact C6|]. apply q_age; auto. }
    assert (C7 : clear pol r c 7) by (apply clear_step; [auto|noway; congruence]).
    destruct (ma <? p_min_max_age pol)%Z eqn:EL.
    { left. eexists _, _. split; [reflexivity|]. exists 7%nat. split; [|lia]. eapply clear_first_at; [exact C7|].
      eapply q_age_low; eauto. apply Z.ltb_lt. auto. }
    apply Z.ltb_ge in EL.
    assert (C8 : clear pol r c 8).
    { apply clear_step; [auto|noway]. match goal with H : atoi _ = Some _ |- _ => rewrite EA in H; injection H as <- end. lia. }
    destruct (p_max_max_age pol <? ma)%Z eqn:EH.
    { left. eexists _, _. split; [reflexivity|]. exists 8%nat. split; [|lia]. eapply clear_first_at; [exact C8|].
      eapply q_age_high; eauto. apply Z.ltb_lt. auto. }
    apply Z.ltb_ge in EH. right. eexists. split; [reflexivity|].
    apply clear_step; [auto|noway]. match goal with H : atoi _ = Some _ |- _ => rewrite EA in H; injection H as <- end. lia. }
  destruct CA as [(desc & attrs & -> & HFF)|(ma & -> & C9)].
  { rlog. apply wp_early_why; [http0| |exact I]. intros t Ht. eexists _, _. split; [exact Ht|]. auto. }
  destruct (negb (form_value r "prompt" =s? "") && negb (prompt_validate (form_value r "prompt")))%bool eqn:E4.
  { rlog. wrefuse 9%nat. apply andb_true_iff in E4. destruct E4 as [E4 E4']. apply negb_true_iff in E4, E4'. sdestruct.
    apply q_prompt. apply (prompt_bad _ E4' E4). }
  assert (C10 : clear pol r c 10).
  { apply clear_step; [auto|noway]. match goal with H : ~ prompt_ok _ |- _ => apply H end.
    apply andb_false_iff in E4. destruct E4 as [E4|E4]; apply negb_false_iff in E4; sdestruct; [left; auto|].
    right. destruct (words_exist_unique (form_value r "prompt")) as (l & HW & _). exists l. split; [auto|].
    apply (prompt_validate_spec _ _ HW). exact E4. }
  clear C4 C5 C6 C9.
  apply wp_bind.
  assert (HLOG : forall (Q : post unit), (forall t, http_ops t = [] -> Q t (Done tt)) ->
     wp gtrue Q [] (if form_value r "prompt" =s? "" then logm LDebug MissingParam [("param", "prompt")] else Ret tt)).
  { intros Q HQ. destruct (form_value r "prompt" =s? "").
    - unfold logm, call. apply wp_vis; [exact I|]. intros []. apply wp_ret. apply HQ. reflexivity.
    - apply wp_ret. apply HQ. reflexivity. }
  apply HLOG. clear HLOG. intros h1 H1. cbv beta iota. apply wp_bind.
  eapply wp_frame; [exact (offline_why pol r c f HF C10)|intros t o HO; exact I|].
  intros t2 [os|] [H2 HOS]; [|contradiction]. cbv beta iota.
  assert (H12 : http_ops (h1 ++ t2)%list = []) by (rewrite http_ops_app, H1, H2; reflexivity).
  remember (h1 ++ t2)%list as h2 eqn:Eh2. clear Eh2.
  destruct os as [scp|].
  2: { apply wp_early_why; [http0| |exact I]. intros t Ht. eexists _, _. split; [exact Ht|]. left. exists 10%nat. split; [exact HOS|lia]. }
  destruct HOS as [HS C11].
  destruct ((scp =s? "") && negb (p_allow_empty_scope pol))%bool eqn:E5.
  { apply andb_true_iff in E5; destruct E5 as [E5 E5']. apply negb_true_iff in E5'. sdestruct. subst scp.
    rlog. wrefuse 11%nat. eapply q_no_scope; eauto. }
  assert (C12 : clear pol r c 12).
  { apply clear_step; [auto|noway]. flowx HX. pose proof (offline_rule_fun _ _ _ _ _ HS H6) as ->.
    rewrite H5 in E5. discriminate E5. }
  destruct (f_id f && negb (include_openid scp))%bool eqn:E6.
  { apply andb_true_iff in E6; destruct E6 as [E6 E6']. apply negb_true_iff in E6'.
    rlog. wrefuse 12%nat. eapply q_openid; eauto. intros HO. apply has_word_include in HO.
    change (include_openid scp = true) in HO. congruence. }
  assert (C13 : clear pol r c 13).
  { apply clear_step; [auto|noway]. flowx HX. scopex HS. apply andb_false_iff in E6. destruct E6 as [E6|E6]; [congruence|].
    apply negb_false_iff in E6. match goal with H : ~ has_word _ _ |- _ => apply H end. apply has_word_include. exact E6. }
  destruct (c_can_scope c (f_type f) scp) eqn:E7; cbn [negb].
  2: { rlog. wrefuse 13%nat. eapply q_scope; eauto. }
  assert (C14 : clear pol r c 14).
  { apply clear_step; [auto|noway]. flowx HX. scopex HS. congruence. }
  clear C10 C11 C12 C13.
  destruct (negb (flow_eqb (f_type f) FAuthorizationCode) && include_openid scp && f_id f
            && (form_value r "nonce" =s? ""))%bool eqn:E8.
  { rewrite !andb_true_iff in E8. destruct E8 as [[[E8 _] E8'] E8'']. sdestruct.
    rlog. wrefuse 14%nat. eapply q_no_nonce; eauto. intros H. rewrite H in E8. discriminate. }
  assert (C15 : clear pol r c 15).
  { apply clear_step; [auto|noway]. flowx HX. apply andb_false_iff in E6. destruct E6 as [E6|E6]; [congruence|].
    apply negb_false_iff in E6. rewrite E6 in E8.
    repeat match goal with H : f_id f = true |- _ => rewrite H in E8; clear H
                         | H : form_value r "nonce" = "" |- _ => rewrite H in E8; clear H end.
    destruct (f_type f); [congruence|discriminate E8|discriminate E8|discriminate E8]. }
  destruct (negb (form_value r "nonce" =s? "") && (p_max_nonce pol <? slen (form_value r "nonce"))%Z)%bool eqn:E9.
  { apply andb_true_iff in E9; destruct E9 as [E9 E9']. apply negb_true_iff in E9. sdestruct.
    apply Z.ltb_lt in E9'. rewrite slen_spec in E9'. rlog. wrefuse 15%nat. apply q_nonce.
    intros [HN|HN]; [congruence|lia]. }
  assert (C16 : clear pol r c 16).
  { apply clear_step; [auto|noway]. match goal with H : ~ within _ _ |- _ => apply H end.
    apply andb_false_iff in E9. destruct E9 as [E9|E9]; [apply negb_false_iff in E9; sdestruct; left; auto|].
    right. apply Z.ltb_ge in E9. rewrite slen_spec in E9. exact E9. }
  destruct (negb (form_value r "code_verifier" =s? "")
            && (p_max_verifier pol <? slen (form_value r "code_verifier"))%Z)%bool eqn:E10.
  { apply andb_true_iff in E10; destruct E10 as [E10 E10']. apply negb_true_iff in E10. sdestruct.
    apply Z.ltb_lt in E10'. rewrite slen_spec in E10'. rlog. wrefuse 16%nat. apply q_verifier.
    intros [HN|HN]; [congruence|lia]. }
  assert (C17 : clear pol r c 17).
  { apply clear_step; [auto|noway]. match goal with H : ~ within _ _ |- _ => apply H end.
    apply andb_false_iff in E10. destruct E10 as [E10|E10]; [apply negb_false_iff in E10; sdestruct; left; auto|].
    right. apply Z.ltb_ge in E10. rewrite slen_spec in E10. exact E10. }
  rcall. destruct x as [locale|]; [exact C17|]. rlog.
  apply wp_early_why; [http0| |exact I]. intros t Ht. eexists _, _. split; [exact Ht|]. right. split; [auto|].
  rewrite app_assoc. apply late_app.
  apply (late_failed _ _ _ _ _ (Ev (OChooseLocale (form_value r "ui_locales")) None));
    [apply in_or_app; right; findin|fatal0].
Qed.

Lemma clear_none pol r c : clear pol r c 17 -> forall n t d, ~ param_fault pol r c n t d.
Proof. intros HC n t d Hf. pose proof (HC _ _ _ Hf). pose proof (fault_bound _ _ _ _ _ _ Hf). lia. Qed.

Lemma handle_explained E pol r tr b : exec (handle_request E pol r) tr (Done b) -> explained E pol r tr b.
Proof.
  intros He. unfold handle_request in He. apply exec_bind in He.
  destruct He as [(t1 & tr1 & oc & H1 & He & ->)|[_ He]]; [|discriminate].
  apply (wp_exec _ _ _ _ _ (hr_client_wp r)) in H1.
  destruct oc as [[[c cid] ruri]|]; unfold client_post in H1.
  2: { apply exec_inv in He. destruct He as [-> Hb]. injection Hb as ->. rewrite app_nil_r. destruct H1 as (H1 & _ & H2). apply x_screen; auto. }
  destruct H1 as (-> & -> & HA & HH1). assert (HA' : forall t, approved r c (t1 ++ t)%list) by (intros t; apply approved_app; auto).
  cbv zeta in He. apply exec_bind in He. destruct He as [(t2 & tr2 & om & H2 & He & ->)|[_ He]]; [|discriminate].
  pose proof (wp_exec _ _ _ _ _ (hr_mode_wp E pol r _ _) H2) as H2a.
  pose proof (wp_exec _ _ _ _ _ (hr_mode_why E pol r c _ _) H2) as H2b.
  destruct om as [[[f rmode] rt]|]; unfold mode_post, why_mode in *.
  2: { apply exec_inv in He. destruct He as [-> Hb]. injection Hb as ->. rewrite app_nil_r.
       destruct H2b as (m & typ & desc & Hm & HN).
       apply (x_error _ _ _ _ _ c m typ desc); auto. apply reported_app; auto. }
  destruct H2a as (HH2 & -> & HF & HM).
  apply exec_bind in He. destruct He as [(t3 & tr3 & oq & H3 & He & ->)|[_ He]]; [|discriminate].
  pose proof (wp_exec _ _ _ _ _ (hr_params_wp E pol r c f rmode HF HM (proj1 (proj2 (proj2 HA)))) H3) as H3a.
  pose proof (wp_exec _ _ _ _ _ (hr_params_why E pol r c f rmode (t1 ++ t2)%list HF H2b) H3) as H3b.
  assert (HH12 : http_ops (t1 ++ t2)%list = []) by (rewrite http_ops_app, HH1, HH2; reflexivity).
  destruct oq as [q|]; unfold params_post, why_params in *.
  2: { apply exec_inv in He. destruct He as [-> Hb]. injection Hb as ->. rewrite app_nil_r.
       destruct H3b as (typ & desc & Ht & HR).
       apply (x_error _ _ _ _ _ c rmode typ desc); auto; rewrite app_assoc; [apply reported_app; auto|].
       destruct HR as [(n & HR & Hn)|[HC HR]].
       - left. exists n. split; [auto|]. unfold error_mode.
         destruct (n <=? 1)%nat eqn:L1; [apply Nat.leb_le in L1; lia|].
         destruct (n <=? 3)%nat eqn:L2; [apply Nat.leb_le in L2; lia|].
         intros f' Hf'. rewrite (asks_unique _ _ _ Hf' HF). exact HM.
       - right. split; [apply clear_none; auto|]. split; [auto|].
         intros f' Hf'. rewrite (asks_unique _ _ _ Hf' HF). exact HM. }
  destruct H3a as (HH3 & HV & HQF & HQM).
  assert (HH : http_ops ((t1 ++ t2) ++ t3)%list = []) by (rewrite http_ops_app, HH12, HH3; reflexivity).
  assert (HC : vctx pol r c q f) by (split; [auto|split; [apply (asks_not_direct _ _ HF)|auto]]).
  pose proof (clear_none _ _ _ H3b) as HNF.
  pose proof (proj1 (wp_sound _ _ _ _ _ _ (hr_after_why E pol r c q f (form_value r "max_age") _ HC HH) He)) as HQ.
  rewrite <- !app_assoc in HQ. unfold after_w in HQ.
  destruct HQ as [[HQ1 HQ2]|[(typ & desc & HQ & HR & HB)|(info & pre & tc & HQ1 & HQ2 & HQ3 & HQ4)]].
  - apply (x_asked _ _ _ _ _ c q); auto.
  - apply (x_error _ _ _ _ _ c (rq_mode q) typ desc); auto.
    + unfold says in HQ. rewrite (v_redirect _ _ _ _ HV), (v_state _ _ _ _ HV) in HQ. exact HQ.
    + right. split; [auto|]. split; [auto|]. intros f' Hf'. rewrite (asks_unique _ _ _ Hf' HF).
      apply (v_mode _ _ _ _ HV). exact (proj1 HC).
  - apply (x_completed _ _ _ _ _ c q info pre tc); auto.
Qed.

(** ** Faults and well-formed requests *)

Lemma param_fault_fun pol r c n t d t' d' :
  param_fault pol r c n t d -> param_fault pol r c n t' d' -> t = t' /\ d = d'.
Proof. intros H1 H2. destruct H1; inversion H2; subst; auto. Qed.

Lemma first_fault_at_fun pol r c n t d n' t' d' :
  first_fault_at pol r c n t d -> first_fault_at pol r c n' t' d' -> n = n' /\ t = t' /\ d = d'.
Proof.
  intros [H1 H2] [H3 H4]. assert (n = n') by (pose proof (H2 _ _ _ H3); pose proof (H4 _ _ _ H1); lia).
  subst n'. split; [reflexivity|]. eapply param_fault_fun; eauto.
Qed.

Lemma fault_not_wf pol r c n t d : param_fault pol r c n t d ->
  well_formed pol r ->
  (forall f, asks_for r f -> c_can_flow c (f_type f) = true /\
     forall s, offline_rule f (form_value r "prompt") (form_value r "scope") s -> c_can_scope c (f_type f) s = true) ->
  False.
Proof.
  intros HF (f & W0 & WM & WD & WP & WA & WS & WO & WN & WNL & WV) HC.
  destruct HF as [H|H1 H2|f' Hf H1 H2 H3|f' Hf H1 H2 H3 H4 H5|f' Hf H1|H1 H2|H1 H2|z H1 H2|z H1 H2|H1
                 |f' l Hf H1 H2 H3 H4 H5 H6|f' Hf H1 H2|f' s Hf H1 H2 H3|f' s Hf H1 H2|f' Hf H1 H2 H3|H1|H1];
    try (pose proof (asks_unique _ _ _ W0 Hf) as <-).
  - apply judge_asks in W0. rewrite H in W0. discriminate.
  - exact (H2 _ W0).
  - destruct WM as [WM|[WM|[WM _]]]; congruence.
  - destruct WM as [WM|[WM|[_ WM]]]; [congruence|rewrite WM in H3; exact (H3 eq_refl)|].
    destruct (WM H2) as [K|K]; [congruence|auto].
  - destruct (HC _ W0) as [K _]. congruence.
  - destruct WD as [WD|WD]; [congruence|auto].
  - destruct WA as [WA|(z & WA & _)]; congruence.
  - destruct WA as [WA|(z' & WA & K)]; [rewrite WA in H1; discriminate|]. rewrite WA in H1. injection H1 as <-. lia.
  - destruct WA as [WA|(z' & WA & K)]; [rewrite WA in H1; discriminate|]. rewrite WA in H1. injection H1 as <-. lia.
  - auto.
  - destruct (WO H3 H1 H4) as [K|(l' & K1 & K2)]; [congruence|]. rewrite (words_unique _ _ _ K1 H5) in K2. auto.
  - destruct (WS _ H2) as [[K|K] _]; congruence.
  - destruct (WS _ H2) as [_ K]. auto.
  - destruct (HC _ W0) as [_ K]. rewrite (K _ H1) in H2. discriminate.
  - exact (WN H1 H2 H3).
  - auto.
  - auto.
Qed.

Lemma within_dec v m : within v m \/ ~ within v m.
Proof.
  unfold within. destruct (string_dec v ""); [auto|].
  destruct (Z_le_gt_dec (Z.of_nat (String.length v)) m); [auto|]. right. intros [H|H]; [auto|lia].
Qed.

Lemma no_fault_iff pol r c :
  (forall n typ desc, ~ param_fault pol r c n typ desc) <->
  well_formed pol r /\
  (forall f, asks_for r f -> c_can_flow c (f_type f) = true /\
     forall s, offline_rule f (form_value r "prompt") (form_value r "scope") s -> c_can_scope c (f_type f) s = true).
Proof.
  split; [|intros [H1 H2] n t d HF; exact (fault_not_wf _ _ _ _ _ _ HF H1 H2)].
  intros HN.
  destruct (string_dec (form_value r "response_type") "") as [E0|E0].
  { destruct (HN _ _ _ (q_no_type _ _ _ E0)). }
  destruct (judge_response_type (form_value r "response_type")) as [f|] eqn:EJ.
  2: { destruct (HN _ _ _ (q_type pol r c E0 ltac:(intros f Hf; apply judge_asks in Hf; congruence))). }
  apply judge_asks in EJ.
  split.
  2: { intros f' Hf'. split.
       - destruct (c_can_flow c (f_type f')) eqn:E; [auto|]. destruct (HN _ _ _ (q_flow _ _ _ _ Hf' E)).
       - intros s Hs. destruct (c_can_scope c (f_type f') s) eqn:E; [auto|]. destruct (HN _ _ _ (q_scope _ _ _ _ _ Hf' Hs E)). }
  exists f. split; [exact EJ|]. split.
  { destruct (p_ignore_bad_mode pol) eqn:EI; [left; auto|]. right.
    destruct (string_dec (form_value r "response_mode") "") as [EM|EM]; [left; auto|]. right.
    destruct (mode_rank (form_value r "response_mode")) as [k|] eqn:ER.
    2: { destruct (HN _ _ _ (q_mode _ _ _ _ EJ EI EM ER)). }
    split; [discriminate|]. intros HL. destruct (mode_rank (flow_default pol f)) as [d|] eqn:ED; [right|left; auto].
    assert (A1 : mode_rank (form_value r "response_mode") <> None) by congruence.
    assert (A2 : mode_rank (flow_default pol f) <> None) by congruence.
    apply compare_at_least; auto. destruct (rmode_compare _ _) eqn:EC; [auto|].
    destruct (HN _ _ _ (q_level _ _ c _ EJ EI HL A1 A2 ltac:(intros K; apply at_least_compare in K; congruence))). }
  split.
  { destruct (string_dec (form_value r "display") "") as [ED|ED]; [auto|]. right.
    destruct (display_ok (form_value r "display")) eqn:EO; [apply display_iff; auto|].
    destruct (HN _ _ _ (q_display pol r c ED ltac:(intros K; apply display_iff in K; congruence))). }
  split.
  { destruct (string_dec (form_value r "prompt") "") as [EP|EP]; [left; auto|].
    destruct (prompt_validate (form_value r "prompt")) eqn:EV.
    - right. destruct (words_exist_unique (form_value r "prompt")) as (l & HW & _). exists l. split; [auto|].
      apply (prompt_validate_spec _ _ HW). exact EV.
    - destruct (HN _ _ _ (q_prompt pol r c (prompt_bad _ EV EP))). }
  split.
  { destruct (string_dec (form_value r "max_age") "") as [EA|EA]; [auto|]. right.
    destruct (atoi (form_value r "max_age")) as [z|] eqn:EZ.
    2: { destruct (HN _ _ _ (q_age pol r c EA EZ)). }
    exists z. split; [auto|]. split.
    - destruct (Z_lt_le_dec z (p_min_max_age pol)) as [K|K]; [|auto]. destruct (HN _ _ _ (q_age_low _ _ c _ EZ K)).
    - destruct (Z_lt_le_dec (p_max_max_age pol) z) as [K|K]; [|auto]. destruct (HN _ _ _ (q_age_high _ _ c _ EZ K)). }
  split.
  { intros s Hs. split.
    - destruct (p_allow_empty_scope pol) eqn:EE; [auto|]. left. intros ->. destruct (HN _ _ _ (q_no_scope _ _ c _ EJ EE Hs)).
    - intros HI. destruct (scope_include s "openid") eqn:EO; [apply has_word_include; auto|].
      destruct (HN _ _ _ (q_openid pol r c f s EJ HI Hs ltac:(intros K; apply has_word_include in K; congruence))). }
  split.
  { intros HO HT HP. destruct (p_allow_empty_scope pol) eqn:EE; [auto|]. right.
    destruct (words_exist_unique (form_value r "scope")) as (l & HW & _). exists l. split; [auto|]. intros HI.
    destruct (HN _ _ _ (q_offline pol r c f l EJ HT EE HO HP HW HI)). }
  split.
  { intros HI HT EN. destruct (HN _ _ _ (q_no_nonce pol r c f EJ HI HT EN)). }
  split.
  - destruct (within_dec (form_value r "nonce") (p_max_nonce pol)) as [K|K]; [auto|]. destruct (HN _ _ _ (q_nonce pol r c K)).
  - destruct (within_dec (form_value r "code_verifier") (p_max_verifier pol)) as [K|K]; [auto|].
    destruct (HN _ _ _ (q_verifier pol r c K)).
Qed.

(** A faulty request has a first fault. *)
Definition fdec (pol : policy) (r : request) (c : client) (n : nat) : Prop :=
  (exists t d, param_fault pol r c n t d) \/ (forall t d, ~ param_fault pol r c n t d).

Lemma asks_dec r : (exists f, asks_for r f) \/ (forall f, ~ asks_for r f).
Proof.
  destruct (judge_response_type (form_value r "response_type")) as [f|] eqn:E.
  - left. exists f. apply judge_asks. exact E.
  - right. intros f H. apply judge_asks in H. congruence.
Qed.
Lemma offline_rule_ex f p s : exists s', offline_rule f p s s'.
Proof.
  destruct (scope_include s "offline_access") eqn:EO.
  - pose proof (proj1 (has_word_include s "offline_access") EO) as HO.
    destruct (f_type f) eqn:ET.
    all: try (destruct (scope_include p "consent") eqn:EC;
      [exists s; right; split; [right; split; [congruence|apply has_word_include; auto]|reflexivity]|]).
    all: destruct (words_exist_unique s) as (l & HW & _); exists (scope_remove s "offline_access"); left;
      (split; [auto|]); (split; [|exists l; split; [auto|exact (scope_remove_spec s l "offline_access" HW)]]).
    all: first [left; assumption | right; intros HH; apply has_word_include in HH; congruence].
  - exists s. right. split; [|reflexivity]. left. intros HO. apply has_word_include in HO. congruence.
Qed.
Lemma has_word_dec s w : has_word s w \/ ~ has_word s w.
Proof.
  destruct (scope_include s w) eqn:E; [left; apply has_word_include; auto|right].
  intros H. apply has_word_include in H. congruence.
Qed.

Lemma fault_dec pol r c n : fdec pol r c n.
Proof.
  unfold fdec. destruct (asks_dec r) as [[f HF]|HNF].
  2: { destruct n as [|[|n]].
       - destruct (string_dec (form_value r "response_type") "") as [E|E]; [left; eauto using q_no_type|right; noway; auto].
       - destruct (string_dec (form_value r "response_type") "") as [E|E]; [right; noway; auto|left; eauto using q_type].
       - destruct n as [|[|[|[|[|[|[|[|[|[|[|[|[|[|[|n]]]]]]]]]]]]]]].
         all: try (right; noway; exact (HNF _ ltac:(eassumption))).
         + destruct (display_ok (form_value r "display")) eqn:ED.
           * apply display_iff in ED. right. noway. auto.
           * destruct (string_dec (form_value r "display") "") as [E|E]; [right; noway; auto|left].
             eexists _, _. apply q_display; [auto|]. intros K. apply display_iff in K. congruence.
         + destruct (string_dec (form_value r "max_age") "") as [E|E]; [right; noway; auto|].
           destruct (atoi (form_value r "max_age")) eqn:EA; [right; noway; congruence|left; eauto using q_age].
         + destruct (atoi (form_value r "max_age")) as [z|] eqn:EA; [|right; noway; congruence].
           destruct (Z_lt_le_dec z (p_min_max_age pol)) as [K|K]; [left; eauto using q_age_low|right; noway].
           match goal with H : atoi _ = Some _ |- _ => rewrite EA in H; injection H as <- end. lia.
         + destruct (atoi (form_value r "max_age")) as [z|] eqn:EA; [|right; noway; congruence].
           destruct (Z_lt_le_dec (p_max_max_age pol) z) as [K|K]; [left; eauto using q_age_high|right; noway].
           match goal with H : atoi _ = Some _ |- _ => rewrite EA in H; injection H as <- end. lia.
         + destruct (string_dec (form_value r "prompt") "") as [E|E].
           { right. noway. match goal with H : ~ prompt_ok _ |- _ => apply H end. left. auto. }
           destruct (prompt_validate (form_value r "prompt")) eqn:EV; [|left; eauto using q_prompt, prompt_bad].
           right. noway. match goal with H : ~ prompt_ok _ |- _ => apply H end. right.
           destruct (words_exist_unique (form_value r "prompt")) as (l & HW & _). exists l. split; [auto|].
           apply (prompt_validate_spec _ _ HW). exact EV.
         + destruct (within_dec (form_value r "nonce") (p_max_nonce pol)); [right; noway; auto|left; eauto using q_nonce].
         + destruct (within_dec (form_value r "code_verifier") (p_max_verifier pol)); [right; noway; auto|left; eauto using q_verifier]. }
  assert (HX : forall f', asks_for r f' -> f' = f) by (intros f' Hf'; apply (asks_unique _ _ _ Hf' HF)).
  destruct (offline_rule_ex f (form_value r "prompt") (form_value r "scope")) as [s HS].
  destruct n as [|[|[|[|[|[|[|[|[|[|[|[|[|[|[|[|[|n]]]]]]]]]]]]]]]]].
  - destruct (string_dec (form_value r "response_type") "") as [E|E]; [left; eauto using q_no_type|right; noway; auto].
  - right. noway. firstorder.
  - destruct (p_ignore_bad_mode pol) eqn:EI; [right; noway; congruence|].
    destruct (string_dec (form_value r "response_mode") "") as [E|E]; [right; noway; auto|].
    destruct (mode_rank (form_value r "response_mode")) eqn:ER; [right; noway; congruence|left; eauto using q_mode].
  - destruct (p_ignore_bad_mode pol) eqn:EI; [right; noway; congruence|].
    destruct (p_level_check pol) eqn:EL; [|right; noway; congruence].
    destruct (mode_rank (form_value r "response_mode")) eqn:ER; [|right; noway; congruence].
    destruct (mode_rank (flow_default pol f)) eqn:ED; [|right; noway; flowx HX; congruence].
    assert (A1 : mode_rank (form_value r "response_mode") <> None) by congruence.
    assert (A2 : mode_rank (flow_default pol f) <> None) by congruence.
    destruct (rmode_compare (form_value r "response_mode") (flow_default pol f)) eqn:EC.
    + right. noway. flowx HX. apply compare_at_least in EC; auto.
    + left. eexists _, _. eapply (q_level _ _ _ f); eauto. intros K. apply at_least_compare in K. congruence.
  - destruct (c_can_flow c (f_type f)) eqn:E; [right; noway; flowx HX; congruence|left; eauto using q_flow].
  - destruct (display_ok (form_value r "display")) eqn:ED.
    + apply display_iff in ED. right. noway. auto.
    + destruct (string_dec (form_value r "display") "") as [E|E]; [right; noway; auto|left].
      eexists _, _. apply q_display; [auto|]. intros K. apply display_iff in K. congruence.
  - destruct (string_dec (form_value r "max_age") "") as [E|E]; [right; noway; auto|].
    destruct (atoi (form_value r "max_age")) eqn:EA; [right; noway; congruence|left; eauto using q_age].
  - destruct (atoi (form_value r "max_age")) as [z|] eqn:EA; [|right; noway; congruence].
    destruct (Z_lt_le_dec z (p_min_max_age pol)) as [K|K]; [left; eauto using q_age_low|right; noway].
    match goal with H : atoi _ = Some _ |- _ => rewrite EA in H; injection H as <- end. lia.
  - destruct (atoi (form_value r "max_age")) as [z|] eqn:EA; [|right; noway; congruence].
    destruct (Z_lt_le_dec (p_max_max_age pol) z) as [K|K]; [left; eauto using q_age_high|right; noway].
    match goal with H : atoi _ = Some _ |- _ => rewrite EA in H; injection H as <- end. lia.
  - destruct (string_dec (form_value r "prompt") "") as [E|E].
    { right. noway. match goal with H : ~ prompt_ok _ |- _ => apply H end. left. auto. }
    destruct (prompt_validate (form_value r "prompt")) eqn:EV; [|left; eauto using q_prompt, prompt_bad].
    right. noway. match goal with H : ~ prompt_ok _ |- _ => apply H end. right.
    destruct (words_exist_unique (form_value r "prompt")) as (l & HW & _). exists l. split; [auto|].
    apply (prompt_validate_spec _ _ HW). exact EV.
  - destruct (has_word_dec (form_value r "scope") "offline_access") as [HO|HO]; [|right; noway; auto].
    destruct (has_word_dec (form_value r "prompt") "consent") as [HP|HP]; [|right; noway; auto].
    destruct (p_allow_empty_scope pol) eqn:EE; [right; noway; congruence|].
    destruct (flow_eqb (f_type f) FImplicit) eqn:ET.
    { right. noway. flowx HX. destruct (f_type f); congruence || discriminate ET. }
    assert (HT : f_type f <> FImplicit) by (intros K; rewrite K in ET; discriminate ET).
    destruct (words_exist_unique (form_value r "scope")) as (l & HW & HU).
    assert (DL : In (filter (fun w => negb (String.eqb w "openid" || String.eqb w "offline_access")) l) [[]; [""]] \/
              ~ In (filter (fun w => negb (String.eqb w "openid" || String.eqb w "offline_access")) l) [[]; [""]]).
    { destruct (in_dec (list_eq_dec string_dec)
        (filter (fun w => negb (String.eqb w "openid" || String.eqb w "offline_access")) l) [[]; [""]]); auto. }
    destruct DL as [DL|DL]; [left; eauto using q_offline|right; noway].
    match goal with H : In (filter _ ?l0) _, H' : words_of _ ?l0 |- _ => pose proof (HU _ H') as ->; auto end.
  - destruct (p_allow_empty_scope pol) eqn:EE; [right; noway; congruence|].
    destruct (string_dec s "") as [->|E]; [left; eauto using q_no_scope|right; noway]. flowx HX.
    match goal with H : offline_rule _ _ _ "" |- _ => exact (E (offline_rule_fun _ _ _ _ _ HS H)) end.
  - destruct (f_id f) eqn:EI; [|right; noway; flowx HX; congruence].
    destruct (has_word_dec s "openid") as [HO|HO]; [|left; eauto using q_openid].
    right. noway. flowx HX. scopex HS. auto.
  - destruct (c_can_scope c (f_type f) s) eqn:E; [|left; eauto using q_scope].
    right. noway. flowx HX. scopex HS. congruence.
  - destruct (f_id f) eqn:EI; [|right; noway; flowx HX; congruence].
    destruct (flow_eqb (f_type f) FAuthorizationCode) eqn:ET.
    { right. noway. flowx HX. destruct (f_type f); congruence || discriminate ET. }
    assert (HT : f_type f <> FAuthorizationCode) by (intros K; rewrite K in ET; discriminate ET).
    destruct (string_dec (form_value r "nonce") "") as [E|E]; [left; eauto using q_no_nonce|right; noway; auto].
  - destruct (within_dec (form_value r "nonce") (p_max_nonce pol)); [right; noway; auto|left; eauto using q_nonce].
  - destruct (within_dec (form_value r "code_verifier") (p_max_verifier pol)); [right; noway; auto|left; eauto using q_verifier].
  - right. noway.
Qed.

Lemma some_fault pol r c n t d : param_fault pol r c n t d -> exists n' t' d', first_fault_at pol r c n' t' d'.
Proof.
  revert t d. induction n as [n IH] using (well_founded_induction Wf_nat.lt_wf). intros t d HF.
  assert (HM : (exists m t' d', (m < n)%nat /\ param_fault pol r c m t' d') \/ clear pol r c n).
  { clear - n. induction n as [|n IH].
    - right. intros m t d _. lia.
    - destruct IH as [(m & t & d & H1 & H2)|IH]; [left; exists m, t, d; split; [lia|auto]|].
      destruct (fault_dec pol r c n) as [(t & d & H)|H]; [left; exists n, t, d; split; [lia|auto]|].
      right. apply clear_step; auto. }
  destruct HM as [(m & t' & d' & H1 & H2)|HM]; [exact (IH m H1 _ _ H2)|].
  exists n, t, d. split; auto.
Qed.

(** ** Completing and cancelling *)

Lemma complete_says E pol tr :
  exec (complete_request E pol) tr (Done false) ->
  (In (Ev OContinue None) tr /\ http_ops tr = []) \/
  exists q rest, tr = Ev OContinue (Some (Some q)) :: rest /\
    (reported (rq_mode q) (rq_redirect q) (rq_state q) "server_error" "" tr \/
     exists f, rq_flow q = Some f /\ f_type f = FDirectGrant /\ http_ops tr = []).
Proof.
  intros H.
  cut (wp gtrue (fun h x => x = Done false ->
    (In (Ev OContinue None) h /\ http_ops h = []) \/
    exists q rest, h = Ev OContinue (Some (Some q)) :: rest /\
    (says q "server_error" "" h \/
     exists f, rq_flow q = Some f /\ f_type f = FDirectGrant /\ http_ops h = [])) [] (complete_request E pol)).
  { intros HW. exact (wp_exec _ _ _ _ _ HW H eq_refl). }
  clear H tr. unfold complete_request. rcall. destruct x as [[q|]|].
  3: { unfold logm. rcall. apply wp_ret. intros _. left. split; [left; reflexivity|]. http0 || reflexivity. }
  2: { intros K. discriminate K. }
  assert (HP : forall h p, (exists rest, h = Ev OContinue (Some (Some q)) :: rest) -> wp gtrue (plain q) h p ->
    wp gtrue (fun h x => x = Done false ->
    (In (Ev OContinue None) h /\ http_ops h = []) \/
    exists q rest, h = Ev OContinue (Some (Some q)) :: rest /\
    (says q "server_error" "" h \/
     exists f, rq_flow q = Some f /\ f_type f = FDirectGrant /\ http_ops h = [])) h p).
  { intros h p (rest & Hh) HW. apply wp_complete; [|intros tr p' _; destruct p'; exact I].
    intros tr res He Hr. subst res. right. exists q, (rest ++ tr)%list. split; [rewrite Hh; reflexivity|].
    left. exact (proj1 (wp_sound _ _ _ _ _ _ HW He)). }
  rcall. destruct x as [uid|].
  2: { apply HP; [eexists; reflexivity|]. apply plain_failed. reflexivity. }
  rcall. destruct x as [info [e|]].
  { apply HP; [eexists; reflexivity|]. apply plain_error. reflexivity. }
  destruct (rq_flow q) as [f|] eqn:EF.
  2: { unfold complete. rewrite EF. intros K. discriminate K. }
  destruct (flow_eqb (f_type f) FDirectGrant) eqn:ED.
  - unfold complete. rewrite EF. assert (HD : f_type f = FDirectGrant) by (destruct (f_type f); congruence || discriminate ED).
    rewrite HD. apply wp_ret. intros _. right. eexists q, _. split; [reflexivity|]. right. exists f. auto.
  - apply HP; [eexists; reflexivity|]. eapply complete_plain; eauto. intros K. rewrite K in ED. discriminate ED.
Qed.

Lemma cancel_says E tr :
  exec (cancel_request E) tr (Done true) ->
  exists q rest, tr = Ev OContinue (Some (Some q)) :: rest /\
    reported (rq_mode q) (rq_redirect q) (rq_state q) "access_denied" "" tr.
Proof.
  intros H.
  cut (wp gtrue (fun h x => x = Done true -> exists q rest, h = Ev OContinue (Some (Some q)) :: rest /\
    reported (rq_mode q) (rq_redirect q) (rq_state q) "access_denied" "" h) [] (cancel_request E)).
  { intros HW. exact (wp_exec _ _ _ _ _ HW H eq_refl). }
  clear H tr. unfold cancel_request. rcall. destruct x as [[q|]|].
  - unfold rh_error, kind_of. apply wp_send; [apply gtrue_free| |intros K; discriminate K].
    intros ta HS. apply wp_ret. intros _. exists q, ta. split; [reflexivity|].
    exists (error_params "access_denied" "" (rq_state q)). split; [|apply error_params_holds].
    exists [Ev OContinue (Some (Some q))], ta. auto.
  - intros K. discriminate K.
  - unfold logm. rcall. apply wp_ret. intros K. discriminate K.
Qed.
