(** * Proofs about the authorization endpoint: whole runs. *)
From Coq Require Import Lia.
From Verif Require Import WpTac Sha Utils Assertion IdToken AuthzResponse AuthzEndpoint TokenSpec AuthzSpec
  UtilsFacts AuthzFacts AuthzDecide AuthzValidate.

(** When [handle_request] may perform an operation. *)
Definition handle_guard (E : env) (pol : policy) (r : request) : guard := fun h o =>
  let may_issue_now := exists c q info, approved r c h /\ validated pol r c q /\
       may_issue (e_jwt E) pol c q info h /\ issues_for pol q o info h in
  match o with
  | OErrorScreen _ => forall c, ~ approved r c h
  | OLoginScreen q => exists c, approved r c h /\ validated pol r c q /\ ~ silent c q
  | OConsentScreen c q => approved r c h /\ validated pol r c q /\ may_ask c q h
  | OCreateCode | OCreateSession _ _ | OCreateToken _ _ => may_issue_now
  | OFindClient cid | OFindInfo _ cid => cid = form_value r "client_id"
  | OIssuer | OAuthTime | OConfirmLogin | OFromLogin | OMatchSubject _ | OLoginUser | ONow | OJwtNow
  | OChooseLocale _ | OLog _ _ _ | OSetHeader _ _ | OStatus _ | OBody _ | ORedirect _ | OMapOrder _ => True
  | _ => False
  end.

Definition handle_post (E : env) (pol : policy) (r : request) : post bool := fun t x =>
  match x with Done _ => handled E pol r t | Panicked => http_ops t = [] end.

Lemma approved_app r c h t : approved r c h -> approved r c (h ++ t)%list.
Proof.
  intros (H1 & H2 & H3 & e & rest & -> & H4). repeat split; auto.
  exists e, (rest ++ t)%list. split; auto.
Qed.

Lemma none_policy_app J c req h t : none_policy J c req t -> none_policy J c req (h ++ t)%list.
Proof.
  unfold none_policy, login_confirmed. destruct (c_none c); auto; intros H.
  - apply in_or_app; auto.
  - destruct H as (H1 & H2 & H3). repeat split; auto; apply in_or_app; auto.
  - destruct H as (now & sub & H1 & H2 & H3). exists now, sub. repeat split; auto; apply in_or_app; auto.
Qed.

Lemma may_issue_app J pol c req info h t :
  may_issue J pol c req info t -> may_issue J pol c req info (h ++ t)%list.
Proof.
  intros (H1 & H2 & H2' & H3 & H4 & H5 & H6).
  split; [apply consent_on_record_app; auto|]. split; [auto|]. split; [auto|].
  split; [intros; apply none_policy_app; auto|].
  split; [intros; apply login_confirmed_app; auto|].
  split; [apply relogin_app; auto|]. intros; apply fresh_login_app; auto.
Qed.

Lemma may_ask_app c req h t : may_ask c req t -> may_ask c req (h ++ t)%list.
Proof.
  intros (H1 & H2 & H3 & H4). split; [auto|].
  split; [intros; apply login_confirmed_app; auto|].
  split; [apply relogin_app; auto|apply fresh_login_app; auto].
Qed.

Lemma quiet_handle E pol r t o : quiet t o -> forall h, handle_guard E pol r (h ++ t)%list o.
Proof. destruct o; simpl; tauto. Qed.

Lemma handle_request_wp E pol r :
  wp (handle_guard E pol r) (handle_post E pol r) [] (handle_request E pol r).
Proof.
  unfold handle_request. apply wp_bind.
  eapply (wp_frame (client_guard r) _ (client_post r) _ []); [apply hr_client_wp| |]; cbn [app].
  { intros t o H. unfold client_guard in H.
    destruct o; simpl in *; try contradiction; auto. }
  intros t1 [[[[c cid] ruri]|]|]; unfold client_post; cbn [handle_post].
  3: auto.
  2: { intros (H1 & H2 & H3). apply wp_ret. apply h_screen; auto. }
  intros (-> & -> & HA & HH1). cbv zeta. apply wp_bind.
  eapply wp_frame; [apply hr_mode_wp|intros t o H; apply quiet_handle; auto|].
  intros t2 [[[[f rmode] rt]|]|]; unfold mode_post; cbn [handle_post].
  3: intros H; rewrite http_ops_app, HH1, H; reflexivity.
  2: { intros (m & typ & H1 & H2). apply wp_ret. apply h_error with (c := c) (mode := m) (typ := typ); auto.
       - apply approved_app; auto.
       - apply error_sent_app; auto. }
  intros (HH2 & -> & HF & HM).
  assert (HH12 : http_ops (t1 ++ t2)%list = []) by (rewrite http_ops_app, HH1, HH2; reflexivity).
  assert (HA2 : approved r c (t1 ++ t2)%list) by (apply approved_app; auto).
  remember (t1 ++ t2)%list as h2 eqn:Eh. clear Eh t1 t2 HA HH1 HH2.
  apply wp_bind.
  eapply wp_frame; [apply (hr_params_wp E pol r c f rmode HF HM); apply HA2
    |intros t o H; apply quiet_handle; auto|].
  intros t3 [[req|]|]; unfold params_post; cbn [handle_post].
  3: intros H; rewrite http_ops_app, HH12, H; reflexivity.
  2: { intros (typ & H1). apply wp_ret. apply h_error with (c := c) (mode := rmode) (typ := typ); auto.
       - apply approved_app; auto.
       - apply error_sent_app; auto.
       - intros f' Hf. rewrite (asks_unique _ _ _ Hf HF). exact HM. }
  intros (HH3 & HV & HQF & HQM).
  assert (HH : http_ops (h2 ++ t3)%list = []) by (rewrite http_ops_app, HH12, HH3; reflexivity).
  assert (HA : approved r c (h2 ++ t3)%list) by (apply approved_app; auto).
  remember (h2 ++ t3)%list as h eqn:Eh. clear Eh h2 t3 HA2 HH12 HH3.
  eapply wp_frame; [apply (hr_after_wp E pol c req (form_value r "max_age") f HQF (asks_not_direct _ _ HF))| |].
  - intros t o HO. pose proof (approved_app _ _ _ t HA) as HA'.
    destruct o; simpl in HO |- *; try contradiction; auto.
    + rewrite HO. apply (v_client _ _ _ _ HV).
    + rewrite HO. apply (v_client _ _ _ _ HV).
    + destruct HO as (info & -> & -> & HO). exists c, req, info.
      split; [auto|]. split; [auto|]. split; [apply may_issue_app; auto|]. repeat split.
    + destruct HO as (info & -> & HO & HS). exists c, req, info.
      split; [auto|]. split; [auto|]. split; [apply may_issue_app; auto|].
      split; [reflexivity|]. split; [reflexivity|].
      destruct HS as (a & code & at_ & -> & H3). exists (h ++ a)%list, code, at_. rewrite app_assoc. auto.
    + destruct HO as [-> HO]. exists c. auto.
    + destruct HO as (-> & -> & HO). split; auto. split; auto. apply may_ask_app; auto.
    + destruct HO as (info & HO). exists c, req, info.
      split; [auto|]. split; [auto|]. split; [apply may_issue_app; auto|]. repeat split.
  - intros t [b|]; unfold after_post; cbn [handle_post].
    2: intros H; rewrite http_ops_app, HH, H; reflexivity.
    intros [[H1 (o & H2 & H3)]|[(typ & H1)|(info & pre & tc & -> & H1 & H2)]].
    + apply h_asked with (c := c) (q := req); auto.
      * apply approved_app; auto.
      * rewrite http_ops_app, HH, H1. reflexivity.
      * exists o. split; auto. unfold ops. rewrite map_app. apply in_or_app. auto.
    + apply h_error with (c := c) (mode := rmode) (typ := typ).
      * apply approved_app; auto.
      * unfold done_error in H1. rewrite (v_redirect _ _ _ _ HV), (v_state _ _ _ _ HV), HQM in H1.
        apply error_sent_app; auto.
      * intros f' Hf. rewrite (asks_unique _ _ _ Hf HF). exact HM.
    + apply h_completed with (c := c) (q := req) (f := f) (info := info) (pre := (h ++ pre)%list) (tc := tc); auto.
      * apply approved_app; auto.
      * rewrite app_assoc. reflexivity.
      * rewrite http_ops_app, HH, H1. reflexivity.
Qed.

Lemma handle_performs E pol r tr res t1 o :
  exec (handle_request E pol r) tr res -> performs tr t1 o -> handle_guard E pol r t1 o.
Proof.
  intros H (a & t2 & ->). exact (wp_guard _ _ _ _ _ t1 (Ev o a) t2 (handle_request_wp E pol r) H eq_refl).
Qed.
Lemma handle_handled E pol r tr b : exec (handle_request E pol r) tr (Done b) -> handled E pol r tr.
Proof. intros H. exact (wp_exec _ _ _ _ _ (handle_request_wp E pol r) H). Qed.
Lemma handle_panicked E pol r tr : exec (handle_request E pol r) tr Panicked -> http_ops tr = [].
Proof. intros H. exact (wp_exec _ _ _ _ _ (handle_request_wp E pol r) H). Qed.

(** ** CompleteRequest *)

Definition cr_guard (pol : policy) : guard := fun h o =>
  match o with
  | OContinue | OLoginUser | OAuthTime | OIssuer | ONow | OLog _ _ _ | OSetHeader _ _ | OStatus _ | OBody _
  | ORedirect _ | OMapOrder _ => True
  | OCreateInfo uid cid scp => exists req,
      h = [Ev OContinue (Some (Some req)); Ev OLoginUser (Some uid)] /\
      cid = rq_client req /\ scp = rq_scope req
  | OFindClient cid => exists req info, recorded req info h /\ cid = rq_client req
  | OCreateCode => exists req info, recorded req info h
  | OCreateSession i s => exists req, recorded req i h /\ session_for pol req s h
  | OCreateToken i b => exists req, recorded req i h /\ b = false
  | _ => False
  end.

Definition cr_post (E : env) (pol : policy) : post bool := fun t x =>
  match x with
  | Done true => exists req info tc, recorded req info t /\ skipn 3 t = tc /\ completed E pol info req tc
  | Done false =>
      (exists a b d, t = [Ev OContinue None; Ev (OLog a b d) tt]) \/
      exists req rest, t = Ev OContinue (Some (Some req)) :: rest /\
        (done_error req "server_error" t \/
         exists f, rq_flow req = Some f /\ f_type f = FDirectGrant /\ http_ops t = [])
  | Panicked => http_ops t = []
  end.

Lemma cr_free pol : free (cr_guard pol).
Proof.
  intros h o [H|[[m ->]|(a & b & d & ->)]]; [|exact I|exact I].
  destruct o; simpl in H; try discriminate; exact I.
Qed.

Lemma complete_request_wp E pol : wp (cr_guard pol) (cr_post E pol) [] (complete_request E pol).
Proof.
  unfold complete_request. unfold call at 1. cbn [bind]. apply wp_vis; [exact I|]. intros x. cbn beta.
  destruct x as [[req|]|].
  2: apply wp_panic; reflexivity.
  2: { repeat (wp_step; try exact I). cbn [app]. left. destruct x. eauto. }
  unfold call. cbn [bind]. apply wp_vis; [exact I|]. intros x. cbn beta. destruct x as [uid|].
  2: { unfold callback_failed.
       repeat lazymatch goal with |- wp _ _ _ (answer_error _ _ _ _) => fail | _ => wp_step end.
       apply wp_answer_error; [apply cr_free|simpl; tauto| |reflexivity].
       intros t Ht. right. exists req. eexists. split; [reflexivity|]. left. apply Ht. reflexivity. }
  apply wp_vis; [exists req; auto|]. intros x. cbn beta. destruct x as [info [e|]].
  { apply wp_answer_error; [apply cr_free|simpl; tauto| |reflexivity].
    intros t Ht. right. exists req. eexists. split; [reflexivity|]. left. apply Ht. reflexivity. }
  hist. eapply wp_frame; [apply complete_wp| |].
  - assert (HR : forall t, recorded req info
       ([Ev OContinue (Some (Some req)); Ev OLoginUser (Some uid);
         Ev (OCreateInfo uid (rq_client req) (rq_scope req)) (info, None)] ++ t)%list)
      by (intros t; exists uid, t; reflexivity).
    intros t o HO. destruct o; simpl in HO |- *; try contradiction; auto.
    + exists req, info. split; [exact (HR t)|exact HO].
    + destruct HO as [-> ->]. exists req. split; [exact (HR t)|reflexivity].
    + destruct HO as [-> HO]. exists req. split; [exact (HR t)|].
      destruct HO as (a & code & at_ & -> & H3). exists ([Ev OContinue (Some (Some req)); Ev OLoginUser (Some uid);
        Ev (OCreateInfo uid (rq_client req) (rq_scope req)) (info, None)] ++ a)%list, code, at_.
      split; [reflexivity|exact H3].
    + exists req, info. exact (HR t).
  - intros t [[]|] HQ; unfold complete_post, cr_post in *.
    + exists req, info, t. split; [exists uid, t; reflexivity|]. auto.
    + right. exists req. eexists. split; [reflexivity|].
      destruct HQ as [HQ|(f & H1 & H2 & ->)].
      * left. apply (error_sent_app _ _ _ _ [_; _; _]); [reflexivity|exact HQ].
      * right. exists f. auto.
    + exact HQ.
Qed.

Lemma cancel_request_wp E :
  wp (fun _ o => o = OContinue \/ quiet [] o)
     (fun t x => match x with
      | Done true => exists req rest, t = Ev OContinue (Some (Some req)) :: rest /\
          done_error req "access_denied" t /\ forall e, In e rest -> quiet [] (ev_op e)
      | Done false => exists a b d, t = [Ev OContinue None; Ev (OLog a b d) tt]
      | Panicked => http_ops t = []
      end) [] (cancel_request E).
Proof.
  assert (HF : free (fun _ o => o = OContinue \/ quiet [] o)).
  { intros h o H. right. apply (quiet_free [] o H). }
  unfold cancel_request. wp_step. apply wp_vis; [auto|]. intros x. cbn beta. destruct x as [[req|]|].
  - unfold rh_error, kind_of. apply wp_send; [exact HF| |reflexivity].
    intros ta HS. apply wp_ret. cbn [app]. exists req, ta. split; [reflexivity|]. split.
    + exists "", (error_params "access_denied" "" (rq_state req)).
      split; [|split; [simpl; tauto|apply error_params_holds]].
      exists [Ev OContinue (Some (Some req))], ta. auto.
    + intros e He. inversion HS; subst; simpl in He; repeat destruct He as [<-|He]; try exact I; contradiction.
  - apply wp_panic. reflexivity.
  - unfold logm, call. cbn [bind]. apply wp_vis; [right; exact I|]. intros []. apply wp_ret. cbn [app]. eauto.
Qed.

(** ** When the endpoint can panic *)

Definition panics_on (P : Prop) : post bool := fun t r =>
  r = Panicked -> P \/ exists e, In e t /\ nil_answer e.

Definition safe {A} (P : Prop) (p : prog A) : Prop := forall tr,
  exec p tr Panicked -> P \/ exists e, In e tr /\ nil_answer e.

Lemma safe_ret {A} (P : Prop) (a : A) : safe P (Ret a).
Proof. intros tr H. apply exec_inv in H. destruct H as [_ H]. discriminate. Qed.
Lemma safe_vis {A} (P : Prop) o (k : ans o -> prog A) :
  (forall x, nil_answer (Ev o x) \/ safe P (k x)) -> safe P (Vis o k).
Proof.
  intros HK tr H. apply exec_inv in H. destruct H as (x & tr' & -> & H).
  destruct (HK x) as [Hx|Hx]; [right; exists (Ev o x); simpl; auto|].
  destruct (Hx _ H) as [?|(e & H1 & H2)]; [auto|]. right. exists e. simpl; auto.
Qed.
Lemma safe_bind {A B} (P : Prop) (p : prog A) (f : A -> prog B) :
  safe P p -> (forall a, (exists tr, exec p tr (Done a)) -> safe P (f a)) -> safe P (bind p f).
Proof.
  intros H1 H2 tr H. apply exec_bind in H. destruct H as [(t1 & t2 & a & Ha & Hb & ->)|[Ha _]].
  - destruct (H2 a (ex_intro _ t1 Ha) _ Hb) as [?|(e & H3 & H4)]; [auto|]. right. exists e.
    split; [apply in_or_app; auto|auto].
  - destruct (H1 _ Ha) as [?|(e & H3 & H4)]; [auto|]. right. exists e. auto.
Qed.
Lemma safe_if {A} (P : Prop) (b : bool) (p q : prog A) : safe P p -> safe P q -> safe P (if b then p else q).
Proof. destruct b; auto. Qed.
Lemma safe_here {A} (P : Prop) (p : prog A) : P -> safe P p.
Proof. intros H tr _. auto. Qed.

Lemma safe_send E k uri params : safe (e_url_ok E uri = false) (rh_success E k uri params).
Proof.
  assert (HR : forall k', safe (e_url_ok E uri = false)
    (if e_url_ok E uri then call (ORedirect (location k' uri params)) else Panic)).
  { intros k'. destruct (e_url_ok E uri) eqn:EU; [|apply safe_here; reflexivity].
    unfold call. apply safe_vis. intros x. right. apply safe_ret. }
  destruct k; unfold rh_success; [apply HR|apply HR|].
  unfold call. cbn [bind]. repeat (apply safe_vis; intros; right). apply safe_ret.
Qed.

Ltac sstep :=
  lazymatch goal with
  | |- safe _ (Ret _) => apply safe_ret
  | |- safe _ (Vis _ _) => apply safe_vis; let x := fresh "x" in intros x; cbn beta
  | |- nil_answer (Ev ?o ?x) \/ _ =>
      let o' := eval hnf in o in
      lazymatch o' with
      | OFindClient _ => destruct x as [[?|] [[]|]];
           first [left; simpl; solve [eauto]|right]
      | OCreateToken _ _ => destruct x as [[?|] [?|]]; first [left; reflexivity|right]
      | OContinue => destruct x as [[?|]|]; first [left; reflexivity|right]
      | _ => right
      end
  | |- safe _ (answer_error _ _ _ _) => unfold answer_error, rh_error
  | |- safe _ (callback_failed _ _ _) => unfold callback_failed
  | |- safe _ (bind (rh_success _ _ _ _) _) => apply safe_bind; [apply safe_send|intros ? _]
  | |- safe _ ?p =>
      let q := head p in
      lazymatch q with
      | Ret _ => cbn [bind]
      | Vis _ _ => cbn [bind]
      | call _ => unfold call; cbn [bind]
      | logm _ _ _ => unfold logm, call; cbn [bind]
      | match ?x with _ => _ end => destruct x eqn:?; cbn [negb fst snd]
      end
  end.

Lemma safe_complete E pol info req : rq_flow req <> None ->
  safe (e_url_ok E (rq_redirect req) = false) (complete E pol (Some info) req).
Proof.
  intros HF. unfold complete, complete_code, complete_implicit, complete_hybrid.
  destruct (rq_flow req) as [f|]; [|congruence]. repeat sstep.
Qed.

Lemma safe_consent_reusable {A} P pol info req (k : bool -> prog A) :
  (forall b, safe P (k b)) -> safe P (bind (consent_reusable pol info req) k).
Proof. intros H. unfold consent_reusable. repeat sstep; apply H. Qed.

Lemma safe_none_tail E pol req : rq_flow req <> None ->
  safe (e_url_ok E (rq_redirect req) = false) (none_tail E pol req).
Proof.
  intros HF. unfold none_tail.
  repeat lazymatch goal with
  | |- safe _ (bind (consent_reusable _ _ _) _) =>
      apply safe_consent_reusable; intros []; [apply safe_complete; exact HF|]
  | _ => sstep
  end.
Qed.

Lemma safe_login E pol c req mas : rq_flow req <> None ->
  safe (e_url_ok E (rq_redirect req) = false) (hr_login E pol c req mas).
Proof.
  intros HF.
  assert (HS : safe (e_url_ok E (rq_redirect req) = false) (show_consent E c req))
    by (unfold show_consent; repeat sstep).
  assert (HC : safe (e_url_ok E (rq_redirect req) = false) (hr_consent E pol c req)).
  { unfold hr_consent.
    repeat lazymatch goal with
    | |- safe _ (show_consent _ _ _) => exact HS
    | |- safe _ (bind (consent_reusable _ _ _) _) =>
        apply safe_consent_reusable; intros []; [apply safe_complete; exact HF|]
    | _ => sstep
    end. }
  unfold hr_login, hr_max_age.
  repeat lazymatch goal with
  | |- safe _ (hr_consent _ _ _ _) => exact HC
  | _ => sstep
  end.
Qed.

Lemma safe_after E pol c req mas : rq_flow req <> None ->
  safe (e_url_ok E (rq_redirect req) = false) (hr_after E pol c req mas).
Proof.
  intros HF. unfold hr_after, hr_none, hr_session, none_session, none_match, jwt_parse.
  repeat lazymatch goal with
  | |- safe _ (none_tail _ _ _) => apply safe_none_tail; exact HF
  | |- safe _ (hr_login _ _ _ _ _) => apply safe_login; exact HF
  | |- safe _ (match (if ?b then _ else _) with _ => _ end) => destruct b eqn:?
  | |- safe _ (let '(_, _) := (if ?b then _ else _) in _) => destruct b eqn:?
  | _ => sstep
  end.
Qed.

Lemma safe_early {A} E mode uri typ desc state :
  safe (e_url_ok E uri = false) (@early A E mode uri typ desc state).
Proof. unfold early, rh_error. apply safe_bind; [apply safe_send|]. intros _ _. apply safe_ret. Qed.

Lemma safe_handle E pol r :
  safe (e_url_ok E (form_value r "redirect_uri") = false) (handle_request E pol r).
Proof.
  unfold handle_request. apply safe_bind.
  { unfold hr_client. cbv zeta. repeat sstep. }
  intros oc (tr1 & H1). apply (wp_exec _ _ _ _ _ (hr_client_wp r)) in H1.
  destruct oc as [[[c cid] ruri]|]; [|apply safe_ret]. destruct H1 as (-> & -> & HA & _).
  cbv zeta. apply safe_bind.
  { unfold hr_mode. cbv zeta.
    repeat lazymatch goal with
    | |- safe _ (early _ _ _ _ _ _) => apply safe_early
    | |- safe _ (bind (early _ _ _ _ _ _) _) => apply safe_bind; [apply safe_early|intros ? _]
    | |- safe _ (bind (bind _ _) _) => apply safe_bind; [|intros ? _]
    | _ => sstep
    end. }
  intros om (tr2 & H2). apply (wp_exec _ _ _ _ _ (hr_mode_wp E pol r _ _)) in H2.
  destruct om as [[[f rmode] rt]|]; [|apply safe_ret]. destruct H2 as (_ & -> & HF & HM).
  apply safe_bind.
  { unfold hr_params, offline_scope. cbv zeta.
    repeat lazymatch goal with
    | |- safe _ (early _ _ _ _ _ _) => apply safe_early
    | |- safe _ (bind (if _ then _ else _) _) => apply safe_bind; [|intros ? _]
    | _ => sstep
    end. }
  intros oq (tr3 & H3).
  apply (wp_exec _ _ _ _ _ (hr_params_wp E pol r c f rmode HF HM (proj1 (proj2 (proj2 HA))))) in H3.
  destruct oq as [req|]; [|apply safe_ret]. destruct H3 as (_ & HV & HQ & _).
  rewrite <- (v_redirect _ _ _ _ HV). apply safe_after. congruence.
Qed.

(** ** Why a request is not completed *)

Lemma can_sign_hash J c t : can_sign J c -> id_hash (c_alg c) t <> None.
Proof.
  intros (_ & _ & p & H) HN. unfold id_hash in HN.
  destruct (has_suffix "256" (c_alg c)) eqn:E1; [discriminate|].
  destruct (has_suffix "384" (c_alg c)) eqn:E2; [discriminate|].
  destruct (has_suffix "512" (c_alg c)) eqn:E3; [discriminate|].
  destruct H as [H|[H|H]]; [rewrite <- Bool.not_true_iff_false in E1; apply E1
    |rewrite <- Bool.not_true_iff_false in E2; apply E2
    |rewrite <- Bool.not_true_iff_false in E3; apply E3]; apply has_suffix_spec; eauto.
Qed.
Lemma can_sign_implicit J c iss aud sub nonce e at_ tok now : can_sign J c ->
  gen_implicit J (c_alg c) (c_key c) (c_kid c) iss aud sub nonce e at_ tok now <> None.
Proof.
  intros H. unfold gen_implicit, raw_gen. pose proof (can_sign_hash J c tok H) as HH.
  destruct H as (H1 & H2 & _). rewrite H1.
  destruct (tok =s? ""); [apply H2|]. destruct (id_hash (c_alg c) tok); [apply H2|congruence].
Qed.
Lemma can_sign_hybrid J c iss aud sub nonce e at_ tok code now : can_sign J c ->
  gen_hybrid J (c_alg c) (c_key c) (c_kid c) iss aud sub nonce e at_ tok code now <> None.
Proof.
  intros H. unfold gen_hybrid, raw_gen. pose proof (can_sign_hash J c tok H) as HH.
  pose proof (can_sign_hash J c code H) as HH2.
  destruct H as (H1 & H2 & _). rewrite H1.
  destruct (tok =s? ""); [|destruct (id_hash (c_alg c) tok); [|congruence]];
    (destruct (id_hash (c_alg c) code); [apply H2|congruence]).
Qed.

(** [refuses J p]: every run of [p] that ends with [false] contains a failure. *)
Definition refuses (J : jwtlib) (found : client -> Prop) (p : prog bool) : Prop := forall tr,
  exec p tr (Done false) ->
  (forall cid c e, In (Ev (OFindClient cid) (Some c, e)) tr -> can_sign J c) ->
  (forall c, found c -> can_sign J c) ->
  exists e, In e tr /\ failed e.

Definition found_by (o : op) : ans o -> client -> Prop :=
  match o as o0 return ans o0 -> client -> Prop with
  | OFindClient _ => fun x c => exists e, x = (Some c, e)
  | _ => fun _ _ => False
  end.

Lemma refuses_true J fd : refuses J fd (Ret true).
Proof. intros tr H. apply exec_inv in H. destruct H as [_ H]. discriminate. Qed.
Lemma refuses_panic J fd : refuses J fd Panic.
Proof. intros tr H. apply exec_inv in H. destruct H as [_ H]. discriminate. Qed.
Lemma refuses_vis J (fd : client -> Prop) o (k : ans o -> prog bool) :
  (forall x, failed (Ev o x) \/ refuses J (fun c => fd c \/ found_by o x c) (k x)) -> refuses J fd (Vis o k).
Proof.
  intros HK tr H H1 H2. apply exec_inv in H. destruct H as (x & tr' & -> & H).
  destruct (HK x) as [Hx|Hx]; [exists (Ev o x); simpl; auto|].
  destruct (Hx _ H) as (e & H3 & H4); [| |exists e; simpl; auto].
  - intros. apply (H1 cid c e). right. auto.
  - intros c [Hc|Hc]; auto. destruct o; simpl in Hc; try contradiction. destruct Hc as [e ->].
    apply (H1 cid c e). left. reflexivity.
Qed.
Lemma refuses_bind {A} J fd (p : prog A) (f : A -> prog bool) :
  (forall a, refuses J fd (f a)) -> refuses J fd (bind p f).
Proof.
  intros H2 tr H H3 H4. apply exec_bind in H. destruct H as [(t1 & t2 & a & Ha & Hb & ->)|[_ H]]; [|discriminate].
  destruct (H2 a _ Hb) as (e & H5 & H6); auto.
  - intros. apply (H3 cid c e). apply in_or_app. auto.
  - exists e. split; auto. apply in_or_app. auto.
Qed.
Lemma refuses_sure J (fd : client -> Prop) p c : fd c -> (can_sign J c -> False) -> refuses J fd p.
Proof. intros H1 H2 tr _ _ H. destruct (H2 (H c H1)). Qed.

Ltac rstep :=
  lazymatch goal with
  | |- refuses _ _ (Ret true) => apply refuses_true
  | |- refuses _ _ Panic => apply refuses_panic
  | |- refuses _ _ (Vis ?o _) => apply refuses_vis; let x := fresh "x" in intros x; cbn beta;
      let o' := eval hnf in o in
      lazymatch o' with
      | OFindClient _ => destruct x as [[?|] [[]|]]; first [left; right; discriminate|right]
      | OCreateToken _ _ => destruct x as [[?|] [[]|]]; first [left; right; discriminate|right]
      | OCreateInfo _ _ _ => destruct x as [[?|] [[]|]]; first [left; right; discriminate|right]
      | OCreateSession _ _ => destruct x as [[]|]; first [left; right; discriminate|right]
      | OContinue => destruct x as [[?|]|]; first [left; left; reflexivity|right]
      | OAuthTime => destruct x as [?|]; first [left; left; reflexivity|right]
      | OCreateCode => destruct x as [?|]; first [left; left; reflexivity|right]
      | OLoginUser => destruct x as [?|]; first [left; left; reflexivity|right]
      | _ => right
      end
  | |- refuses _ _ (bind (rh_success _ _ _ _) _) => apply refuses_bind; intros ?
  | |- refuses _ _ ?p =>
      let q := head p in
      lazymatch q with
      | Ret _ => cbn [bind]
      | Vis _ _ => cbn [bind]
      | call _ => unfold call; cbn [bind]
      | logm _ _ _ => unfold logm, call; cbn [bind]
      | match gen_implicit ?J (c_alg ?c) _ _ _ _ _ _ _ _ _ _ with _ => _ end =>
          destruct (gen_implicit _ _ _ _ _ _ _ _ _ _ _ _) eqn:?;
            [|eapply (refuses_sure J _ _ c); [simpl; eauto 10|intros HS; eapply can_sign_implicit; eauto]]
      | match gen_hybrid ?J (c_alg ?c) _ _ _ _ _ _ _ _ _ _ _ with _ => _ end =>
          destruct (gen_hybrid _ _ _ _ _ _ _ _ _ _ _ _ _) eqn:?;
            [|eapply (refuses_sure J _ _ c); [simpl; eauto 10|intros HS; eapply can_sign_hybrid; eauto]]
      | match ?x with _ => _ end => destruct x eqn:?; cbn [negb fst snd]
      end
  end.

Lemma refuses_complete E pol info req fd :
  (forall f, rq_flow req = Some f -> f_type f <> FDirectGrant) ->
  refuses (e_jwt E) fd (complete E pol info req).
Proof.
  intros HD. unfold complete, complete_code, complete_implicit, complete_hybrid.
  destruct (rq_flow req) as [f|]; [|apply refuses_panic]. specialize (HD f eq_refl).
  destruct (f_type f); [| | |congruence]; repeat rstep.
Qed.

Lemma complete_request_refused E pol tr :
  exec (complete_request E pol) tr (Done false) ->
  (forall req f, In (Ev OContinue (Some (Some req))) tr -> rq_flow req = Some f -> f_type f <> FDirectGrant) ->
  (forall cid c e, In (Ev (OFindClient cid) (Some c, e)) tr -> can_sign (e_jwt E) c) ->
  exists e, In e tr /\ failed e.
Proof.
  intros H HD HC. unfold complete_request, call in H. cbn [bind] in H. apply exec_inv in H.
  destruct H as (x & tr' & -> & H).
  destruct x as [[req|]|].
  - assert (HR : refuses (e_jwt E) (fun _ => False) (
      ru <- call OLoginUser ;;
      match ru with
      | None => callback_failed E req "GetLoginUserId"
      | Some uid =>
          ri <- call (OCreateInfo uid (rq_client req) (rq_scope req)) ;;
          match ri with
          | (_, Some _) => answer_error E req "server_error" ""
          | (info, None) => complete E pol info req
          end
      end)).
    { repeat lazymatch goal with
      | |- refuses _ _ (complete _ _ _ _) =>
          apply refuses_complete; intros f Hf; apply (HD req f); [left; reflexivity|exact Hf]
      | _ => rstep
      end. }
    destruct (HR _ H) as (e & H1 & H2); [|intros c []|exists e; simpl; auto].
    intros. eapply HC. right. eauto.
  - apply exec_inv in H. destruct H as [_ H]. discriminate.
  - exists (Ev OContinue None). split; [left; reflexivity|]. left. reflexivity.
Qed.
