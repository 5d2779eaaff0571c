(** * Why the authorization endpoint answers with an error. *)
From Coq Require Import Lia.
From Verif Require Import WpTac Sha Utils OAuthError Assertion IdToken AuthzResponse AuthzEndpoint TokenSpec AuthzSpec FlowSpec
  UtilsFacts AuthzFacts AuthzDecide AuthzValidate AuthzProofs AuthzMore.

(** ** Reasons only accumulate *)

Lemma in_left {A} (x : A) a b : In x a -> In x (a ++ b)%list.
Proof. intros H. apply in_or_app. auto. Qed.

Lemma bad_hint_app J c r t u : bad_hint J c r t -> bad_hint J c r (t ++ u)%list.
Proof.
  intros [].
  - apply bh_login; auto.
  - apply bh_idt; auto.
  - eapply bh_mismatch; apply in_left; eauto.
  - apply bh_unreadable; auto.
  - eapply bh_invalid; eauto. apply in_left; auto.
Qed.
Lemma no_consent_app pol r t u : no_consent pol r t -> no_consent pol r (t ++ u)%list.
Proof.
  intros [].
  - eapply nc_none; eauto. apply in_left; eauto.
  - eapply nc_inactive; eauto. apply in_left; eauto.
  - eapply nc_scope; eauto. apply in_left; eauto.
  - eapply nc_old; eauto; apply in_left; eauto.
Qed.
Lemma reason_app E pol r c typ t u : reason E pol r c typ t -> reason E pol r c typ (t ++ u)%list.
Proof.
  intros [].
  - apply r_request; auto.
  - eapply r_flow; eauto.
  - eapply r_scope; eauto.
  - apply r_failure; auto. intros HC. destruct H0 as (e & H1 & H2).
    + intros. eapply HC. apply in_left; eauto.
    + exists e. split; auto. apply in_left; auto.
  - apply r_login; auto. apply in_left; auto.
  - apply r_consent; auto. apply no_consent_app; auto.
  - apply r_forbidden; auto.
  - apply r_hint; auto. apply bad_hint_app; auto.
Qed.

Lemma reason_failed E pol r c t e : In e t -> fatal e -> reason E pol r c "server_error" t.
Proof. intros H1 H2. apply r_failure; auto. intros _. eauto. Qed.

(** ** After validation *)

Definition after_r (E : env) (pol : policy) (r : request) (c : client) (req : arequest) : post bool := fun h x =>
  match x with
  | Done b =>
      (http_ops h = [] /\ asked c req b h) \/
      (exists typ, done_error req typ h /\ reason E pol r c typ h /\ b = false) \/
      (exists info pre tc, h = (pre ++ tc)%list /\ http_ops pre = [] /\ completed E pol (Some info) req tc /\
         b = true)
  | Panicked => True
  end.

Lemma gtrue_free : free gtrue.
Proof. intros h o _. exact I. Qed.

Lemma answer_reason E pol r c req typ desc h :
  http_ops h = [] -> In typ error_types -> reason E pol r c typ h ->
  wp gtrue (after_r E pol r c req) h (answer_error E req typ desc).
Proof.
  intros H0 HT HR. apply wp_answer_error; [apply gtrue_free|auto| |exact I].
  intros t Ht. right. left. exists typ. split; [auto|]. split; [apply reason_app; auto|reflexivity].
Qed.

Lemma http_snoc h o (x : ans o) : http_ops h = [] -> is_http o = false -> http_ops (h ++ [Ev o x])%list = [].
Proof. intros H1 H2. rewrite http_ops_app, H1. unfold http_ops. simpl. rewrite H2. reflexivity. Qed.

Lemma callback_reason E pol r c req h method e :
  http_ops h = [] -> In e h -> fatal e ->
  wp gtrue (after_r E pol r c req) h (callback_failed E req method).
Proof.
  intros H0 HI HF. unfold callback_failed, logm, call. cbn [bind]. apply wp_vis; [exact I|]. intros y. cbn beta.
  apply answer_reason; [apply http_snoc; auto|simpl; tauto|].
  eapply reason_failed; [apply in_left; eauto|auto].
Qed.

Lemma complete_reason E pol r c req info f h :
  rq_flow req = Some f -> f_type f <> FDirectGrant -> http_ops h = [] ->
  wp gtrue (after_r E pol r c req) h (complete E pol (Some info) req).
Proof.
  intros HF HT H0. apply wp_complete.
  - intros tr res He. pose proof (wp_exec _ _ _ _ _ (complete_wp E pol (Some info) req) He) as HP.
    destruct res as [[]|]; unfold complete_post in HP; [| |exact I].
    + right. right. exists info, h, tr. auto.
    + destruct HP as [HP|(f' & H1 & H2 & _)]; [|congruence].
      right. left. exists "server_error". split; [apply error_sent_app; auto|].
      split; [|reflexivity]. apply r_failure; [reflexivity|]. intros HC.
      destruct (refuses_complete E pol (Some info) req (fun _ => False)
                  ltac:(intros f' Hf; congruence) tr He) as (e & H1 & H2).
      * intros. eapply HC. apply in_or_app. right. eauto.
      * intros c' [].
      * exists e. split; [apply in_or_app; auto|]. split; [auto|]. intros uid cid i x ->.
        apply in_split in H1. destruct H1 as (t1 & t2 & ->).
        destruct (wp_guard _ _ _ _ _ t1 _ t2 (complete_wp E pol (Some info) req) He eq_refl).
  - intros tr p' _. destruct p'; exact I.
Qed.

(** The answer to the lookup of an authorization. *)
Definition info_of (e : event) : option (dres authinfo) :=
  match e with
  | Ev o a => (match o as o0 return ans o0 -> option (dres authinfo) with
               | OFindInfo _ _ => fun x => Some x
               | _ => fun _ => None
               end) a
  end.
Lemma info_answer u v c d (a b : dres authinfo) : Ev (OFindInfo u c) a = Ev (OFindInfo v d) b -> a = b.
Proof. intros H. apply (f_equal info_of) in H. simpl in H. congruence. Qed.

Lemma snoc_in {A} (h : list A) x : In x (h ++ [x])%list.
Proof. apply in_or_app. right. left. reflexivity. Qed.

(** One step of a stage: [rs H] where [H : http_ops h = []]. *)
Ltac http0 := repeat (apply http_snoc; [|reflexivity]); assumption.
Ltac findin := first [apply snoc_in | apply in_left; findin].
Ltac rcall := unfold call; cbn [bind]; apply wp_vis; [exact I|]; let x := fresh "x" in intros x; cbn beta.
Ltac fatal0 := split; [first [left; reflexivity|right; simpl; discriminate]|
  let H := fresh "H" in intros ? ? ? ? H; first [discriminate H|apply info_answer in H; first [discriminate H|injection H as _ <-; auto]]].
Ltac cb := eapply callback_reason; [http0|findin|fatal0].
Ltac ae := apply answer_reason; [http0|simpl; tauto|].

Lemma login_post E pol r c req h x :
  http_ops h = [] -> after_r E pol r c req (h ++ [Ev (OLoginScreen req) x])%list (Done false).
Proof. intros H0. left. split; [http0|]. exists x. apply snoc_in. Qed.

(** What the stages after validation may rely on. *)
Definition vctx (pol : policy) (r : request) (c : client) (req : arequest) (f : flow) : Prop :=
  rq_flow req = Some f /\ f_type f <> FDirectGrant /\ validated pol r c req /\ asks_for r f.

Lemma vctx_scope pol r c req f : vctx pol r c req f ->
  offline_rule f (form_value r "prompt") (form_value r "scope") (rq_scope req).
Proof.
  intros (HF & _ & HV & _). destruct (v_flow _ _ _ _ HV) as (f' & l & H1 & _ & _ & _ & _ & H2 & _).
  rewrite HF in H1. injection H1 as <-. rewrite (proj1 (v_prompt _ _ _ _ HV)) in H2. exact H2.
Qed.

Lemma reusable_reason E pol r c req f info uid h k :
  vctx pol r c req f -> http_ops h = [] ->
  In (Ev (OFindInfo uid (rq_client req)) (Some info, None)) h ->
  (forall h', http_ops (h ++ h')%list = [] -> no_consent pol r (h ++ h')%list ->
     wp gtrue (after_r E pol r c req) (h ++ h')%list k) ->
  wp gtrue (after_r E pol r c req) h
    (ok <- consent_reusable pol info req ;; if ok then complete E pol (Some info) req else k).
Proof.
  intros HC H0 HI Hk. pose proof (vctx_scope _ _ _ _ _ HC) as HO. destruct HC as (HF & HT & HV & HAF).
  rewrite (v_client _ _ _ _ HV) in HI.
  unfold consent_reusable. destruct (ai_active info) eqn:EA; cbn [andb].
  2: { cbn [bind]. replace h with (h ++ [])%list by apply app_nil_r. apply Hk; [rewrite app_nil_r; auto|].
       rewrite app_nil_r. eapply nc_inactive; eauto. }
  destruct (scope_same (ai_scope info) (rq_scope req)) eqn:ES.
  2: { cbn [bind]. replace h with (h ++ [])%list by apply app_nil_r. apply Hk; [rewrite app_nil_r; auto|].
       rewrite app_nil_r. eapply nc_scope; eauto. intros (la & lb & HA & HB & HP).
       apply (scope_same_spec _ _ _ _ HA HB) in HP. congruence. }
  rcall. assert (HH : http_ops (h ++ [Ev ONow x])%list = []) by http0.
  destruct (x <? add64 (ai_authorized_at info) (p_consent_period pol))%Z eqn:EN.
  - eapply complete_reason; eauto.
  - apply Hk; [exact HH|]. eapply nc_old; [apply in_left; eauto|apply snoc_in|]. apply Z.ltb_ge. exact EN.
Qed.

Lemma none_tail_reason E pol r c req f h :
  vctx pol r c req f -> form_value r "prompt" = "none" -> http_ops h = [] ->
  wp gtrue (after_r E pol r c req) h (none_tail E pol req).
Proof.
  intros HC HP H0. unfold none_tail. rcall. destruct x as [uid|]; [|cb]. rcall.
  assert (HI : rq_client req = form_value r "client_id") by apply (v_client _ _ _ _ (proj1 (proj2 (proj2 HC)))).
  assert (HN : forall i e, e <> ErrUnsupported -> e <> ErrServerError ->
     wp gtrue (after_r E pol r c req)
       ((h ++ [Ev OLoginUser (Some uid)]) ++ [Ev (OFindInfo uid (rq_client req)) (i, Some e)])%list
       (answer_error E req "consent_required" "")).
  { intros i e He1 He2. ae. apply r_consent; [auto|auto|]. rewrite HI. eapply nc_none; [findin|auto|auto]. }
  destruct x as [[info|] [[]|]].
  all: try (apply HN; discriminate).
  all: try (ae; eapply reason_failed; [findin|fatal0]).
  eapply reusable_reason; [eauto|http0|findin|]. intros h' Hh HNC.
  apply answer_reason; [auto|simpl; tauto|]. apply r_consent; auto.
Qed.

Lemma show_consent_reason E pol r c req h :
  http_ops h = [] -> wp gtrue (after_r E pol r c req) h (show_consent E c req).
Proof.
  intros H0. unfold show_consent. rcall. destruct x as [u|]; [|cb].
  destruct u. apply wp_ret. left. split; [http0|]. findin.
Qed.

Lemma hr_consent_reason E pol r c req f h :
  vctx pol r c req f -> http_ops h = [] ->
  wp gtrue (after_r E pol r c req) h (hr_consent E pol c req).
Proof.
  intros HC H0. unfold hr_consent. destruct (include_consent (rq_prompt req)); [apply show_consent_reason; auto|].
  destruct (c_no_consent c); try (apply show_consent_reason; assumption).
  rcall. destruct x as [uid|]; [|cb]. rcall. destruct x as [[info|] [[]|]].
  all: try (apply show_consent_reason; http0).
  all: try (ae; eapply reason_failed; [findin|fatal0]).
  eapply reusable_reason; [eauto|http0|findin|]. intros h' Hh _. apply show_consent_reason. auto.
Qed.

Lemma hr_max_age_reason E pol r c req f mas h :
  vctx pol r c req f -> http_ops h = [] ->
  wp gtrue (after_r E pol r c req) h (hr_max_age E pol c req mas).
Proof.
  intros HC H0. unfold hr_max_age. rcall. destruct x as [at_|]; [|cb].
  destruct (0 <? rq_max_age req)%Z; [|eapply hr_consent_reason; [eauto|http0]].
  rcall. cbv zeta. destruct (rq_max_age req <? _)%Z; [|eapply hr_consent_reason; [eauto|http0]].
  unfold logm. rcall. rcall. apply wp_ret. apply login_post. http0.
Qed.

Lemma hr_login_reason E pol r c req f mas h :
  vctx pol r c req f -> http_ops h = [] ->
  wp gtrue (after_r E pol r c req) h (hr_login E pol c req mas).
Proof.
  intros HC H0. unfold hr_login. destruct (include_login (rq_prompt req)); [|eapply hr_max_age_reason; eauto].
  rcall. destruct x as [[]|]; [eapply hr_max_age_reason; [eauto|http0]| |cb].
  unfold logm. rcall. rcall. apply wp_ret. apply login_post. http0.
Qed.

Lemma hr_session_reason E pol r c req f mas h :
  vctx pol r c req f -> http_ops h = [] ->
  wp gtrue (after_r E pol r c req) h (hr_session E pol c req mas).
Proof.
  intros HC H0. unfold hr_session. rcall. destruct x as [[]|]; [eapply hr_login_reason; [eauto|http0]| |cb].
  unfold logm. rcall. rcall. destruct x0 as [u|]; [|cb]. apply wp_ret. apply login_post. http0.
Qed.

Lemma none_session_reason E pol r c req f h k :
  vctx pol r c req f -> form_value r "prompt" = "none" -> http_ops h = [] ->
  (forall h', http_ops (h ++ h')%list = [] -> wp gtrue (after_r E pol r c req) (h ++ h')%list k) ->
  wp gtrue (after_r E pol r c req) h (none_session E req k).
Proof.
  intros HC HP H0 Hk. unfold none_session. rcall. destruct x as [[]|]; [apply Hk; http0| |cb].
  ae. apply r_login; auto. findin.
Qed.

Lemma none_match_reason E pol r c req f h sub what k :
  vctx pol r c req f -> form_value r "prompt" = "none" -> http_ops h = [] ->
  (forall h', http_ops (h ++ h')%list = [] -> wp gtrue (after_r E pol r c req) (h ++ h')%list k) ->
  wp gtrue (after_r E pol r c req) h (none_match E req sub what k).
Proof.
  intros HC HP H0 Hk. unfold none_match. rcall. destruct x as [[]|]; [apply Hk; http0| |cb].
  ae. apply r_hint; auto. eapply bh_mismatch. findin.
Qed.

Lemma hr_none_reason E pol r c req f mas h :
  vctx pol r c req f -> form_value r "prompt" = "none" -> http_ops h = [] ->
  wp gtrue (after_r E pol r c req) h (hr_none E pol c req mas).
Proof.
  intros HC HP H0. destruct (v_hints _ _ _ _ (proj1 (proj2 (proj2 HC)))) as [HH1 HH2].
  unfold hr_none. destruct (c_none c) eqn:EN.
  - unfold logm. rcall. ae. apply r_forbidden; auto.
  - eapply none_session_reason; eauto. intros. eapply none_tail_reason; eauto.
  - destruct (rq_login_hint req =s? "") eqn:EH; sdestruct.
    + ae. apply r_hint; auto. apply bh_login; congruence.
    + eapply none_session_reason; eauto. intros. eapply none_match_reason; eauto. intros.
      eapply none_tail_reason; eauto.
  - destruct (rq_idt_hint req =s? "") eqn:EH; sdestruct.
    + ae. apply r_hint; auto. apply bh_idt; congruence.
    + rewrite HH1 in *. unfold jwt_parse.
      destruct (jl_parse (e_jwt E) (form_value r "id_token_hint")) as [| |t] eqn:EP.
      * cbn [bind]. ae. apply r_hint; auto. apply bh_unreadable; [auto|]. intros t. rewrite EP. discriminate.
      * cbn [bind]. ae. apply r_hint; auto. apply bh_unreadable; [auto|]. intros t. rewrite EP. discriminate.
      * cbn [bind].
        remember (match c_key c with Some k => k | None => KOther 0 end) as k eqn:EK.
        replace (match c_key c with Some k0 => inr k0 | None => inr (KOther 0) end)
          with (@inr (option oauth_error) key k) by (subst k; destruct (c_key c); reflexivity).
        rcall. cbv zeta.
        assert (HB : (forall sub, ~ hint_good (e_jwt E) c (form_value r "id_token_hint") x sub) ->
           forall desc, wp gtrue (after_r E pol r c req) (h ++ [Ev OJwtNow x])%list
              (answer_error E req "invalid_request" desc)).
        { intros Hb desc. ae. apply r_hint; auto. eapply bh_invalid; [auto|findin|exact Hb]. }
        destruct (jl_verify (e_jwt E) (form_value r "id_token_hint") k) eqn:EV; cbn [andb].
        2: { cbn [bind]. apply HB. intros sub (t' & k' & G1 & G2 & G3 & _). subst k'. rewrite <- EK in G2. congruence. }
        destruct (cf_expired _ || cf_iat _ || cf_nbf _)%bool eqn:ECF; cbn [negb bind].
        { apply HB. intros sub (t' & k' & G1 & G2 & G3 & G4 & _). rewrite EP in G1. injection G1 as <-.
          unfold current in G4. rewrite G4 in ECF. discriminate. }
        destruct (Assertion.jint (jt_claims t) "exp") eqn:EE.
        2: { apply HB. intros sub (t' & k' & G1 & G2 & G3 & G4 & G5 & _). rewrite EP in G1. injection G1 as <-.
             apply G5. exact EE. }
        destruct (jstr "sub" (jt_claims t)) as [sub|] eqn:ESB.
        2: { apply HB. intros sub (t' & k' & G1 & G2 & G3 & G4 & G5 & G6). rewrite EP in G1. injection G1 as <-.
             congruence. }
        eapply none_match_reason; eauto; [http0|]. intros. eapply none_tail_reason; eauto.
  - eapply hr_login_reason; eauto.
Qed.

Lemma hr_after_reason E pol r c req f mas h :
  vctx pol r c req f -> http_ops h = [] ->
  wp gtrue (after_r E pol r c req) h (hr_after E pol c req mas).
Proof.
  intros HC H0. unfold hr_after, PNone. destruct (rq_prompt req =s? "none") eqn:EP; sdestruct.
  - eapply hr_none_reason; eauto. rewrite <- (proj1 (v_prompt _ _ _ _ (proj1 (proj2 (proj2 HC))))). exact EP.
  - eapply hr_session_reason; eauto.
Qed.

(** ** Before validation *)

Lemma rmode_validate_iff m : rmode_validate m = true <-> mode_rank m <> None.
Proof.
  split; [apply rmode_validate_rank|]. intros H. unfold rmode_validate. unfold mode_rank in H.
  unfold MQuery, MFragment, MFormPost.
  destruct (string_dec m "query") as [->|]; [reflexivity|].
  destruct (string_dec m "fragment") as [->|]; [reflexivity|].
  destruct (string_dec m "form_post") as [->|]; [reflexivity|]. congruence.
Qed.
Lemma compare_refl m : rmode_compare m m = true.
Proof. unfold rmode_compare. apply Z.leb_refl. Qed.
Definition refused_post {A} (pol : policy) (r : request) (ruri state : string) : post (option A) := fun t x =>
  match x with
  | Done None => exists m, error_sent m ruri state "invalid_request" t /\ ~ well_formed pol r
  | _ => True
  end.

Lemma wp_early_any {A} (Q : post (option A)) E mode ruri typ desc state h :
  In typ error_types -> http_ops h = [] ->
  (forall t, error_sent mode ruri state typ (h ++ t)%list -> Q (h ++ t)%list (Done None)) ->
  Q h Panicked ->
  wp gtrue Q h (early E mode ruri typ desc state).
Proof.
  intros HT H0 HK HP. unfold early, rh_error. apply wp_send; [apply gtrue_free| |exact HP].
  intros ta HS. apply wp_ret. apply HK. exists desc, (error_params typ desc state).
  split; [|split; [auto|apply error_params_holds]]. exists h, ta. auto.
Qed.

Lemma early_reason {A} pol r E mode ruri desc state h :
  http_ops h = [] -> ~ well_formed pol r ->
  wp gtrue (@refused_post A pol r ruri state) h (early E mode ruri "invalid_request" desc state).
Proof.
  intros H0 HN. apply wp_early_any; [simpl; auto|auto| |exact I]. intros t Ht. exists mode. auto.
Qed.

Lemma wf_asks pol r f : well_formed pol r -> asks_for r f -> mode_acceptable pol r f.
Proof. intros (f' & H1 & H2 & _) H. rewrite (asks_unique _ _ _ H H1). exact H2. Qed.

Lemma hr_mode_reason E pol r ruri state :
  wp gtrue (refused_post pol r ruri state) [] (hr_mode E pol r ruri state).
Proof.
  unfold hr_mode. cbv zeta.
  destruct (form_value r "response_type" =s? "") eqn:ER; sdestruct.
  { unfold logm. rcall. apply early_reason; [reflexivity|]. intros (f & Hf & _). apply judge_asks in Hf.
    rewrite ER in Hf. discriminate. }
  destruct (judge_response_type (form_value r "response_type")) as [f|] eqn:EJ.
  2: { unfold logm. rcall. apply early_reason; [reflexivity|]. intros (f & Hf & _). apply judge_asks in Hf. congruence. }
  apply judge_asks in EJ. pose proof (asks_not_direct _ _ EJ) as HD.
  rewrite (default_mode_flow pol f HD).
  destruct (form_value r "response_mode" =s? "") eqn:EM; sdestruct.
  { unfold logm. cbn [bind]. rcall. rewrite compare_refl. destruct (p_level_check pol); exact I. }
  destruct (rmode_validate (form_value r "response_mode")) eqn:EV.
  { cbn [bind]. destruct (p_level_check pol) eqn:EL; [|exact I].
    destruct (rmode_compare _ _) eqn:EC; [exact I|].
    destruct (p_ignore_bad_mode pol) eqn:EI; [unfold logm; rcall; exact I|].
    unfold logm. rcall. apply early_reason; [reflexivity|]. intros HW. apply (wf_asks _ _ _ HW) in EJ.
    destruct EJ as [H|[H|[H1 H2]]]; [congruence|congruence|].
    destruct (H2 EL) as [H|H]; [apply (unknown_compare (form_value r "response_mode")) in H
                               |apply at_least_compare in H]; congruence. }
  destruct (p_ignore_bad_mode pol) eqn:EI.
  { unfold logm. cbn [bind]. rcall. rewrite compare_refl. destruct (p_level_check pol); exact I. }
  unfold logm. cbn [bind]. rcall. apply wp_bind.
  apply wp_early_any; [simpl; auto|reflexivity| |exact I]. intros t Ht. cbv beta iota. apply wp_ret.
  eexists. split; [exact Ht|]. intros HW. apply (wf_asks _ _ _ HW) in EJ.
  destruct EJ as [H|[H|[H1 H2]]]; [congruence|congruence|].
  apply rmode_validate_iff in H1. congruence.
Qed.

Lemma display_iff d : display_ok d = true <-> In d ["page"; "popup"; "wap"; "touch"].
Proof.
  split; [apply display_ok_spec|]. intros H. simpl in H.
  repeat (destruct H as [<-|H]; [reflexivity|]). destruct H.
Qed.

Lemma max_age_bad pol mas e z : max_age_check pol mas = inl e ->
  mas <> "" /\ (atoi mas = Some z -> ~ (p_min_max_age pol <= z <= p_max_max_age pol)%Z).
Proof.
  unfold max_age_check. destruct (mas =s? "") eqn:E; sdestruct; [discriminate|].
  intros H. split; [auto|]. intros Hz. rewrite Hz in H.
  destruct (z <? p_min_max_age pol)%Z eqn:E1; [apply Z.ltb_lt in E1; lia|].
  destruct (p_max_max_age pol <? z)%Z eqn:E2; [apply Z.ltb_lt in E2; lia|]. discriminate.
Qed.

Lemma prompt_bad p : prompt_validate p = false -> p <> "" -> ~ prompt_ok p.
Proof.
  intros H HP [H1|(l & HW & HL)]; [auto|]. apply (prompt_validate_spec _ _ HW) in HL. congruence.
Qed.

Lemma filter_two l :
  filter (fun w => negb (String.eqb w "openid" || String.eqb w "offline_access")) l
  = filter (fun w => negb (String.eqb w "offline_access")) (filter (fun w => negb (String.eqb w "openid")) l).
Proof.
  induction l as [|w l IH]; [reflexivity|]. simpl.
  destruct (String.eqb w "openid"); simpl; [exact IH|].
  destruct (String.eqb w "offline_access"); simpl; rewrite IH; reflexivity.
Qed.

(** offline_access asked for next to nothing else. *)
Lemma offline_alone s l : words_of s l -> In "offline_access" l ->
  slen (remove_offline (remove_openid s)) = 0%Z ->
  In (filter (fun w => negb (String.eqb w "openid" || String.eqb w "offline_access")) l) [[]; [""]].
Proof.
  intros HW HI HL. rewrite filter_two.
  destruct (scope_remove_spec s l "openid" HW) as [HR1 HR2].
  set (k := filter (fun w => negb (String.eqb w "openid")) l) in *.
  assert (HK : In "offline_access" k) by (apply filter_In; auto).
  assert (HKN : k <> []) by (intros H; rewrite H in HK; destruct HK).
  specialize (HR2 HKN).
  destruct (scope_remove_spec (scope_remove s "openid") k "offline_access" HR2) as [HS1 HS2].
  set (k2 := filter (fun w => negb (String.eqb w "offline_access")) k) in *.
  destruct k2 as [|w k2'] eqn:EK; [left; reflexivity|]. right. left.
  assert (HN : w :: k2' <> []) by discriminate. specialize (HS2 HN).
  assert (HE : remove_offline (remove_openid s) = "").
  { unfold slen in HL. destruct (remove_offline (remove_openid s)); [reflexivity|simpl in HL; lia]. }
  unfold remove_offline, remove_openid, OfflineAccess, OpenID in HE. rewrite HE in HS2.
  apply words_split in HS2. exact HS2.
Qed.

Definition params_r (E : env) (pol : policy) (r : request) (c : client) (rmode : string) (h0 : list event)
  : post (option arequest) := fun t x =>
  match x with
  | Done None => exists typ, error_sent rmode (form_value r "redirect_uri") (form_value r "state") typ t /\
      reason E pol r c typ (h0 ++ t)%list
  | _ => True
  end.

Lemma refused_reason E pol r c rmode h0 h typ desc :
  In typ error_types -> http_ops h = [] -> reason E pol r c typ (h0 ++ h)%list ->
  wp gtrue (params_r E pol r c rmode h0) h
    (early E rmode (form_value r "redirect_uri") typ desc (form_value r "state")).
Proof.
  intros HT H0 HR. apply wp_early_any; [auto|auto| |exact I]. intros t Ht. exists typ. split; [auto|].
  rewrite app_assoc. apply reason_app. auto.
Qed.

Ltac rlog := unfold logm; rcall.
Ltac rrefuse := apply refused_reason; [simpl; tauto|http0|].

Lemma hr_params_reason E pol r c f rmode h0 :
  asks_for r f ->
  wp gtrue (params_r E pol r c rmode h0) []
    (hr_params E pol r c (form_value r "client_id") (form_value r "redirect_uri") (form_value r "state")
       f rmode (form_value r "response_type")).
Proof.
  intros HF. unfold hr_params. cbv zeta.
  assert (H0 : @http_ops [] = []) by reflexivity.
  destruct (c_can_flow c (f_type f)) eqn:E1; cbn [negb].
  2: { rlog. rrefuse. eapply r_flow; eauto. }
  assert (HX : forall f' (P : flow -> Prop), asks_for r f' -> P f' -> P f).
  { intros f' P H HP. rewrite (asks_unique _ _ _ HF H). exact HP. }
  destruct (negb (form_value r "display" =s? "") && negb (display_ok (form_value r "display")))%bool eqn:E2.
  { rlog. rrefuse. apply r_request; [reflexivity|]. intros (f' & _ & _ & HD & _).
    apply andb_true_iff in E2. destruct E2 as [E2 E2']. destruct HD as [HD|HD].
    - rewrite HD in E2. discriminate.
    - apply display_iff in HD. rewrite HD in E2'. discriminate. }
  destruct (max_age_check pol (form_value r "max_age")) as [[desc attrs]|ma] eqn:E3.
  { rlog. rrefuse. apply r_request; [reflexivity|]. intros (f' & _ & _ & _ & _ & HD & _).
    destruct HD as [HD|(z & HZ & HZ')].
    - apply (max_age_bad _ _ _ 0%Z) in E3. tauto.
    - apply (max_age_bad _ _ _ z) in E3. tauto. }
  destruct (negb (form_value r "prompt" =s? "") && negb (prompt_validate (form_value r "prompt")))%bool eqn:E4.
  { rlog. rrefuse. apply r_request; [reflexivity|]. intros (f' & _ & _ & _ & HD & _).
    apply andb_true_iff in E4. destruct E4 as [E4 E4']. apply negb_true_iff in E4, E4'. sdestruct.
    exact (prompt_bad _ E4' E4 HD). }
  apply wp_bind.
  assert (HLOG : forall (Q : post unit), (forall t, http_ops t = [] -> Q t (Done tt)) ->
     wp gtrue Q [] (if form_value r "prompt" =s? "" then logm LDebug MissingParam [("param", "prompt")] else Ret tt)).
  { intros Q HQ. destruct (form_value r "prompt" =s? "").
    - unfold logm, call. apply wp_vis; [exact I|]. intros []. apply wp_ret. apply HQ. reflexivity.
    - apply wp_ret. apply HQ. reflexivity. }
  apply HLOG. clear HLOG. intros h1 H1. cbv beta iota. apply wp_bind.
  assert (HOW : wp gtrue (fun t x => http_ops t = [] /\
     match x with Done (Some s') => offline_rule f (form_value r "prompt") (form_value r "scope") s'
                | Done None => ~ well_formed pol r | Panicked => False end)
     [] (offline_scope pol f (form_value r "prompt") (form_value r "scope"))).
  { eapply wp_mono; [| |apply wp_and; [apply (offline_wp pol f (form_value r "prompt") (form_value r "scope"))
      |instantiate (1 := fun _ x => x = Done None -> ~ well_formed pol r); instantiate (1 := gtrue)]].
    - intros h o _. exact I.
    - intros h x [[Ha Hb] Hc]. split; [auto|]. destruct x as [[s'|]|]; auto.
    - unfold offline_scope. destruct (include_offline (form_value r "scope")) eqn:EO; [|apply wp_ret; discriminate].
      destruct (flow_eqb (f_type f) FImplicit || negb (include_consent (form_value r "prompt")))%bool eqn:EF.
      + rlog. apply wp_ret. discriminate.
      + destruct (p_allow_empty_scope pol) eqn:EE; cbn [negb]; [apply wp_ret; discriminate|].
        destruct (slen _ =? 0)%Z eqn:EZ; [|apply wp_ret; discriminate].
        rlog. apply wp_ret. intros _ (f' & HA & _ & _ & _ & _ & _ & HO & _).
        rewrite <- (asks_unique _ _ _ HF HA) in HO.
        apply orb_false_iff in EF. destruct EF as [EF1 EF2]. apply negb_false_iff in EF2.
        assert (HOW : has_word (form_value r "scope") "offline_access") by (apply has_word_include; exact EO).
        destruct (HO HOW) as [HO'|(l & HW & HN)].
        * intros HI. rewrite HI in EF1. discriminate.
        * apply has_word_include. exact EF2.
        * congruence.
        * apply HN. apply (offline_alone (form_value r "scope")); auto.
          -- destruct HOW as (l' & H2 & H3). destruct (words_exist_unique (form_value r "scope")) as (l0 & _ & HU).
             rewrite (HU _ HW), <- (HU _ H2). exact H3.
          -- apply Z.eqb_eq. exact EZ. }
  eapply wp_frame; [exact HOW|intros t o HO; exact I|].
  intros t2 [os|] [H2 HOS]; [|contradiction]. cbv beta iota.
  assert (H12 : http_ops (h1 ++ t2)%list = []) by (rewrite http_ops_app, H1, H2; reflexivity).
  remember (h1 ++ t2)%list as h2 eqn:Eh2. clear Eh2.
  destruct os as [scp|]; [|rrefuse; apply r_request; auto].
  destruct ((scp =s? "") && negb (p_allow_empty_scope pol))%bool eqn:E5.
  { rlog. rrefuse. apply r_request; [reflexivity|]. intros (f' & HA & _ & _ & _ & _ & HS & _).
    rewrite <- (asks_unique _ _ _ HF HA) in HS. destruct (HS _ HOS) as [[H|H] _];
      apply andb_true_iff in E5; destruct E5 as [E5 E5']; sdestruct; [congruence|].
    rewrite H in E5'. discriminate. }
  destruct (f_id f && negb (include_openid scp))%bool eqn:E6.
  { rlog. rrefuse. apply r_request; [reflexivity|]. intros (f' & HA & _ & _ & _ & _ & HS & _).
    rewrite <- (asks_unique _ _ _ HF HA) in HS. destruct (HS _ HOS) as [_ H].
    apply andb_true_iff in E6; destruct E6 as [E6 E6']. apply H in E6. apply has_word_include in E6.
    change (include_openid scp = true) in E6. rewrite E6 in E6'. discriminate. }
  destruct (c_can_scope c (f_type f) scp) eqn:E7; cbn [negb].
  2: { rlog. rrefuse. eapply r_scope; eauto. }
  destruct (negb (flow_eqb (f_type f) FAuthorizationCode) && include_openid scp && f_id f
            && (form_value r "nonce" =s? ""))%bool eqn:E8.
  { rlog. rrefuse. apply r_request; [reflexivity|]. intros (f' & HA & _ & _ & _ & _ & _ & _ & HN & _).
    rewrite <- (asks_unique _ _ _ HF HA) in HN. rewrite !andb_true_iff in E8.
    destruct E8 as [[[E8 _] E8'] E8'']. sdestruct. apply HN; auto.
    intros H. rewrite H in E8. discriminate. }
  destruct (negb (form_value r "nonce" =s? "") && (p_max_nonce pol <? slen (form_value r "nonce"))%Z)%bool eqn:E9.
  { rlog. rrefuse. apply r_request; [reflexivity|]. intros (f' & _ & _ & _ & _ & _ & _ & _ & _ & HN & _).
    apply andb_true_iff in E9; destruct E9 as [E9 E9']. apply negb_true_iff in E9. sdestruct.
    apply Z.ltb_lt in E9'. rewrite slen_spec in E9'. destruct HN as [HN|HN]; [congruence|lia]. }
  destruct (negb (form_value r "code_verifier" =s? "")
            && (p_max_verifier pol <? slen (form_value r "code_verifier"))%Z)%bool eqn:E10.
  { rlog. rrefuse. apply r_request; [reflexivity|]. intros (f' & _ & _ & _ & _ & _ & _ & _ & _ & _ & HN).
    apply andb_true_iff in E10; destruct E10 as [E10 E10']. apply negb_true_iff in E10. sdestruct.
    apply Z.ltb_lt in E10'. rewrite slen_spec in E10'. destruct HN as [HN|HN]; [congruence|lia]. }
  rcall. destruct x as [locale|]; [exact I|]. rlog. rrefuse.
  apply (reason_failed _ _ _ _ _ (Ev (OChooseLocale (form_value r "ui_locales")) None));
    [apply in_or_app; right; findin|fatal0].
Qed.

(** ** Whole runs *)

Lemma handle_justified E pol r tr b : exec (handle_request E pol r) tr (Done b) -> justified E pol r tr b.
Proof.
  intros He. unfold handle_request in He. apply exec_bind in He.
  destruct He as [(t1 & tr1 & oc & H1 & He & ->)|[_ He]]; [|discriminate].
  apply (wp_exec _ _ _ _ _ (hr_client_wp r)) in H1.
  destruct oc as [[[c cid] ruri]|]; unfold client_post in H1.
  2: { apply exec_inv in He. destruct He as [-> Hb]. injection Hb as ->. rewrite app_nil_r. destruct H1 as (H1 & _ & H2). apply j_screen; auto. }
  destruct H1 as (-> & -> & HA & HH1). assert (HA' : forall t, approved r c (t1 ++ t)%list) by (intros t; apply approved_app; auto).
  cbv zeta in He. apply exec_bind in He. destruct He as [(t2 & tr2 & om & H2 & He & ->)|[_ He]]; [|discriminate].
  pose proof (wp_exec _ _ _ _ _ (hr_mode_wp E pol r _ _) H2) as H2a.
  pose proof (wp_exec _ _ _ _ _ (hr_mode_reason E pol r _ _) H2) as H2b.
  destruct om as [[[f rmode] rt]|]; unfold mode_post, refused_post in *.
  2: { apply exec_inv in He. destruct He as [-> Hb]. injection Hb as ->. rewrite app_nil_r. destruct H2b as (m & Hm & HN).
       apply (j_error _ _ _ _ _ c m "invalid_request"); auto; [apply error_sent_app; auto|]. apply r_request; auto. }
  destruct H2a as (HH2 & -> & HF & HM). clear H2b.
  apply exec_bind in He. destruct He as [(t3 & tr3 & oq & H3 & He & ->)|[_ He]]; [|discriminate].
  pose proof (wp_exec _ _ _ _ _ (hr_params_wp E pol r c f rmode HF HM (proj1 (proj2 (proj2 HA)))) H3) as H3a.
  pose proof (wp_exec _ _ _ _ _ (hr_params_reason E pol r c f rmode (t1 ++ t2)%list HF) H3) as H3b.
  assert (HH12 : http_ops (t1 ++ t2)%list = []) by (rewrite http_ops_app, HH1, HH2; reflexivity).
  destruct oq as [q|]; unfold params_post, params_r in *.
  2: { apply exec_inv in He. destruct He as [-> Hb]. injection Hb as ->. rewrite app_nil_r. destruct H3b as (typ & Ht & HR).
       apply (j_error _ _ _ _ _ c rmode typ); auto; rewrite app_assoc; [apply error_sent_app; auto|auto]. }
  destruct H3a as (HH3 & HV & HQF & HQM). clear H3b.
  assert (HH : http_ops ((t1 ++ t2) ++ t3)%list = []) by (rewrite http_ops_app, HH12, HH3; reflexivity).
  assert (HC : vctx pol r c q f) by (split; [auto|split; [apply (asks_not_direct _ _ HF)|auto]]).
  pose proof (proj1 (wp_sound _ _ _ _ _ _ (hr_after_reason E pol r c q f (form_value r "max_age") _ HC HH) He)) as HQ.
  rewrite <- !app_assoc in HQ. unfold after_r in HQ.
  destruct HQ as [[HQ1 HQ2]|[(typ & HQ & HR & HB)|(info & pre & tc & HQ1 & HQ2 & HQ3 & HQ4)]].
  - apply (j_asked _ _ _ _ _ c q); auto.
  - apply (j_error _ _ _ _ _ c (rq_mode q) typ); auto. unfold done_error in HQ.
    rewrite (v_redirect _ _ _ _ HV), (v_state _ _ _ _ HV) in HQ. exact HQ.
  - apply (j_completed _ _ _ _ _ c q info pre tc); auto.
Qed.
