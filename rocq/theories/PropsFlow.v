(** * Whole authorization requests: from the request to the screens, to the answer.

    As in PropsAuthz.v, [exec p tr res] says that a run of [p] performs the operations
    of [tr] and ends with [res]; all answers of the data layer, callbacks and clock
    are arbitrary.  The vocabulary is in AuthzSpec.v and FlowSpec.v. *)
From Coq Require Import Lia.
From Verif Require Import StrFacts GoStr Codec Sha Utils Core IdToken Assertion AuthzResponse AuthzEndpoint Spec TokenSpec
  AuthzSpec UtilsFacts Hoare ShaFacts AuthzFacts AuthzDecide AuthzValidate AuthzProofs AuthzMore Demo
  FlowSpec ReasonFacts OutcomeFacts PropsAuthz WpTac.

(** ** C64 Completing and cancelling act for a request that was validated. *)

(* Request [q] was handed to a screen of HandleRequest. *)
Definition shown (q : arequest) (tr : list event) : Prop :=
  exists t1 o, performs tr t1 o /\ (o = OLoginScreen q \/ exists c, o = OConsentScreen c q).

Lemma shown_validated E pol r tr res q : exec (handle_request E pol r) tr res -> shown q tr ->
  exists c, approved r c tr /\ validated pol r c q.
Proof.
  intros H (t1 & o & HP & HO).
  destruct (C32_screens_show_validated_requests _ _ _ _ _ _ _ _ H HP HO) as (c & H1 & H2 & _).
  exists c. split; [|exact H2]. destruct HP as (a & t2 & ->). apply approved_app. exact H1.
Qed.

Lemma continued q rest q' rest' :
  Ev OContinue (Some (Some q)) :: rest = Ev OContinue (Some (Some q')) :: rest' -> q = q'.
Proof.
  intros H. apply (f_equal (fun l => match l with
    | Ev o a :: _ => (match o as o0 return ans o0 -> option arequest with
                      | OContinue => fun x => match x with Some y => y | None => None end
                      | _ => fun _ => None end) a
    | [] => None end)) in H. simpl in H. congruence.
Qed.

(* If the request that Continue returns is one that HandleRequest showed, everything
   recorded, stored and sent is for that request's client, scope and redirect URI. *)
Theorem C64_completes_what_was_shown : forall E pol r tr0 res0 q rest res,
  exec (handle_request E pol r) tr0 res0 -> shown q tr0 ->
  let tr := Ev OContinue (Some (Some q)) :: rest in
  exec (complete_request E pol) tr res ->
  exists c, approved r c tr0 /\ validated pol r c q /\
  (forall uid cid scope, In (OCreateInfo uid cid scope) (ops tr) ->
     cid = form_value r "client_id" /\ c_can_redirect c (form_value r "redirect_uri") = true /\
     exists f, asks_for r f /\ c_can_flow c (f_type f) = true /\ c_can_scope c (f_type f) scope = true /\
       offline_rule f (form_value r "prompt") (form_value r "scope") scope) /\
  (forall i s, In (i, s) (sessions tr) ->
     s_redirect s = form_value r "redirect_uri" /\ s_verifier s = form_value r "code_verifier" /\
     s_nonce s = form_value r "nonce" /\ s_expires s = p_session_expires pol) /\
  (http_ops tr <> [] -> exists mode params,
     answered mode (form_value r "redirect_uri") params tr /\ NoDup (map fst params) /\
     (forall v, In ("state", v) params <-> v = form_value r "state" /\ v <> "") /\
     forall f, asks_for r f -> mode_for pol r f mode).
Proof.
  intros E pol r tr0 res0 q rest res H0 HS tr H.
  destruct (shown_validated _ _ _ _ _ _ H0 HS) as (c & HA & HV). exists c. split; [exact HA|]. split; [exact HV|].
  destruct (v_flow _ _ _ _ HV) as (f & l & Hf & Hw & Hl & Hcf & Hcs & Hoff & _ & _).
  assert (HF : asks_for r f) by (exists l; auto).
  assert (HM : forall f', asks_for r f' -> mode_for pol r f' (rq_mode q)).
  { intros f' HF'. rewrite <- (asks_unique _ _ _ HF HF'). apply (v_mode _ _ _ _ HV). exact Hf. }
  split; [|split].
  - intros uid cid scope HI. destruct (in_performs _ _ HI) as (t1 & HP).
    pose proof (C43_consent_recorded_first _ _ _ _ _ _ H HP eq_refl) as (q' & -> & -> & ->).
    destruct HP as (a & t2 & HP). apply continued in HP. subst q'.
    split; [exact (v_client _ _ _ _ HV)|]. split; [rewrite <- (v_redirect _ _ _ _ HV); exact (v_approved _ _ _ _ HV)|].
    exists f. rewrite <- (proj1 (v_prompt _ _ _ _ HV)). auto.
  - intros i s HI. unfold sessions in HI. apply in_flat_map in HI. destruct HI as (o & Ho & HI).
    destruct o; try contradiction. destruct HI as [HI|[]]. injection HI as -> ->.
    destruct (in_performs _ _ Ho) as (t1 & HP).
    pose proof (C43_consent_recorded_first _ _ _ _ _ _ H HP eq_refl) as (q' & HR & (a & code & at_ & Ht1 & ->)).
    destruct HP as (x & t2 & HP). destruct HR as (uid & rest' & ->). cbn [app] in HP.
    apply continued in HP. subst q'. cbn.
    split; [exact (v_redirect _ _ _ _ HV)|]. split; [exact (proj1 (v_verifier _ _ _ _ HV))|].
    split; [exact (proj1 (v_nonce _ _ _ _ HV))|reflexivity].
  - intros HN. pose proof (wp_exec _ _ _ _ _ (complete_request_wp E pol) H) as HC.
    rewrite <- (v_redirect _ _ _ _ HV), <- (v_state _ _ _ _ HV).
    destruct res as [[|]|]; [| |contradiction (HN HC)].
    + destruct (C41_answer _ _ _ H) as (q' & info & f' & params & (uid & rest' & HR) & _ & H1 & H2 & H3 & _).
      apply continued in HR. subst q'. eauto 8.
    + destruct HC as [(a & b & d & HE)|(q' & rest' & HE & [HE'|(_ & _ & _ & HE')])].
      * rewrite HE in HN. contradiction HN. reflexivity.
      * apply continued in HE. subst q'.
        destruct HE' as (desc & params & K1 & K2 & K3 & K4). exists (rq_mode q), params. split; [exact K1|].
        split; [exact K3|]. split; [|exact HM]. intros v. rewrite K4. simpl. unfold given.
        destruct (string_dec (rq_state q) "") as [He|He]; split.
        -- intros [K|[K|[K|[]]]]; discriminate || (destruct (string_dec desc ""); discriminate).
        -- intros [-> K]. contradiction.
        -- intros [K|[K|[K|[]]]]; try discriminate. injection K as <-. auto.
        -- intros [-> _]. auto.
      * contradiction.
Qed.
Print Assumptions C64_completes_what_was_shown.

Theorem C64_cancels_what_was_shown : forall E pol r tr0 res0 q rest b,
  exec (handle_request E pol r) tr0 res0 -> shown q tr0 ->
  let tr := Ev OContinue (Some (Some q)) :: rest in
  exec (cancel_request E) tr (Done b) ->
  b = true /\ exists c mode, approved r c tr0 /\ validated pol r c q /\
    error_sent mode (form_value r "redirect_uri") (form_value r "state") "access_denied" tr /\
    forall f, asks_for r f -> mode_for pol r f mode.
Proof.
  intros E pol r tr0 res0 q rest b H0 HS tr H.
  destruct (shown_validated _ _ _ _ _ _ H0 HS) as (c & HA & HV).
  pose proof (wp_exec _ _ _ _ _ (cancel_request_wp E) H) as HQ. cbv beta iota in HQ. destruct b.
  - split; [reflexivity|]. destruct HQ as (q' & rest' & H1 & H2 & _). apply continued in H1. subst q'.
    exists c, (rq_mode q). split; [exact HA|]. split; [exact HV|].
    rewrite <- (v_redirect _ _ _ _ HV), <- (v_state _ _ _ _ HV). split; [exact H2|]. intros f HF.
    destruct (v_flow _ _ _ _ HV) as (f' & l & Hf & Hw & Hl & _).
    rewrite <- (asks_unique r f' f); [apply (v_mode _ _ _ _ HV); exact Hf|exists l; auto|exact HF].
  - exfalso. destruct HQ as (x & y & d & HQ). apply (f_equal (@List.length _)) in HQ as HL.
    apply (f_equal (fun l => match l with
      | Ev o a :: _ => (match o as o0 return ans o0 -> bool with
                        | OContinue => fun x => match x with Some _ => true | None => false end
                        | _ => fun _ => false end) a
      | [] => false end)) in HQ. discriminate HQ.
Qed.
Print Assumptions C64_cancels_what_was_shown.

(* The stored request is trusted, not checked again: if Continue returns one that was
   never shown, a code goes to a URI that the client does not approve. *)
Definition unapproved_request : arequest :=
  ARequest (Some (Flow FAuthorizationCode false false)) "client1" "openid email" "https://evil.example/" "query" "s1"
    "" "" "page" "" 0 "ja" "" "".
Theorem C64_never_shown_refuted :
  exists tr, exec (complete_request demoE default_policy) tr (Done true) /\
    rq_client unapproved_request = c_id client1 /\
    c_can_redirect client1 (rq_redirect unapproved_request) = false /\
    hd_error (ops tr) = Some OContinue /\
    http_ops tr = [ORedirect "https://evil.example/?code=code1&state=s1"].
Proof.
  exists (completing unapproved_request). split; [apply demo_run; vm_compute; reflexivity|].
  repeat split; vm_compute; reflexivity.
Qed.
Print Assumptions C64_never_shown_refuted.

(* A request shown by HandleRequest and then completed. *)
Definition shown_request : arequest :=
  ARequest (Some (Flow FAuthorizationCode false false)) "client1" "openid email offline_access"
    "https://rp.example/cb" "query" "s1" "" "" "page" "consent" 0 "" "" "".
Example C64_example :
  shown shown_request (trace_of answers2 (handle consent_request)) /\
  exec (complete_request demoE default_policy) (completing shown_request) (Done true) /\
  http_ops (completing shown_request) = [ORedirect "https://rp.example/cb?code=code1&state=s1"].
Proof.
  split; [|split; [apply demo_run; vm_compute; reflexivity|vm_compute; reflexivity]].
  exists (removelast (trace_of answers2 (handle consent_request))), (OConsentScreen client1 shown_request).
  split; [exists (Some tt), []; vm_compute; reflexivity|eauto].
Qed.

(** ** C65 Every error has a reason, and requests in order are served. *)

Theorem C65_errors_have_reasons : forall E pol r tr b,
  exec (handle_request E pol r) tr (Done b) -> justified E pol r tr b.
Proof. exact handle_justified. Qed.
Print Assumptions C65_errors_have_reasons.

(* Error screens, too: each is shown for its own reason. *)
Lemma client_screens r : wp (fun h o => forall n, o = OErrorScreen n -> screen_reason r n h)
  (fun h _ => True) [] (hr_client r).
Proof.
  unfold hr_client. cbv zeta.
  repeat (wp_step; sdestruct; try discriminate; try (intros; discriminate)); try exact I.
  all: intros n' [= <-]; hist.
  all: first [apply sr_no_client_id; auto; fail
             |apply sr_no_redirect; auto; fail
             |eapply sr_refused; [reflexivity|simpl; eauto|assumption]
             |eapply sr_unknown; [reflexivity|simpl; eauto]
             |eapply sr_lookup; [reflexivity|simpl; eauto|tauto]].
Qed.
Theorem C65_error_screens_have_reasons : forall E pol r tr res t1 n,
  exec (handle_request E pol r) tr res -> performs tr t1 (OErrorScreen n) -> screen_reason r n t1.
Proof.
  intros E pol r tr res t1 n H HP. pose proof (C30_no_error_screen_after_approval _ _ _ _ _ _ _ H HP) as HN.
  destruct HP as (x & t2 & ->). unfold handle_request in H. apply exec_bind in H.
  destruct H as [(ta & tb & oc & Ha & Hb & HE)|[Ha _]].
  - assert (K : (exists l, ta = t1 ++ Ev (OErrorScreen n) x :: l)%list \/
                (exists l, t1 = ta ++ l /\ tb = l ++ Ev (OErrorScreen n) x :: t2)%list).
    { symmetry in HE. apply app_eq_app in HE. destruct HE as (l & [[-> HE]|[-> HE]]).
      - destruct l as [|e l]; [right; exists []; rewrite !app_nil_r; auto|].
        injection HE as <- _. left. eauto.
      - right. eauto. }
    destruct K as [(l & HT)|(l & -> & ->)].
    + apply (wp_guard _ _ _ _ _ _ _ _ (client_screens r) Ha HT n eq_refl).
    + exfalso. apply (wp_exec _ _ _ _ _ (hr_client_wp r)) in Ha. destruct oc as [[[c cid] ruri]|].
      * destruct Ha as (_ & _ & HA & _). apply (HN c). apply approved_app. exact HA.
      * apply exec_inv in Hb. destruct Hb as [Hb _]. destruct l; discriminate Hb.
  - apply (wp_guard _ _ _ _ _ _ _ _ (client_screens r) Ha eq_refl n eq_refl).
Qed.
Print Assumptions C65_error_screens_have_reasons.

Theorem C65_good_requests_are_served : forall E pol r c tr b,
  exec (handle_request E pol r) tr (Done b) ->
  approved r c tr -> well_formed pol r ->
  (forall f, asks_for r f -> c_can_flow c (f_type f) = true /\
     forall s, offline_rule f (form_value r "prompt") (form_value r "scope") s -> c_can_scope c (f_type f) s = true) ->
  (forall e, In e tr -> ~ fatal e) ->
  (forall cid c' e, In (Ev (OFindClient cid) (Some c', e)) tr -> can_sign (e_jwt E) c') ->
  (form_value r "prompt" = "none" ->
     c_none c <> NoneForbidden /\ ~ In (Ev OConfirmLogin (Some false)) tr /\
     ~ no_consent pol r tr /\ ~ bad_hint (e_jwt E) c r tr) ->
  exists q, validated pol r c q /\
    ((asked c q b tr /\ http_ops tr = []) \/
     (b = true /\ exists info pre tc, tr = (pre ++ tc)%list /\ http_ops pre = [] /\ completed E pol (Some info) q tc)).
Proof.
  intros E pol r c tr b H HA HW HC HF HS HN.
  destruct (handle_justified _ _ _ _ _ H) as [_ H1 _|c' m typ HA' _ HR _|c' q HA' HV H0 HQ|c' q info pre tc HA' HV H1 H2 H3 H4].
  - exfalso. apply (H1 c HA).
  - exfalso. pose proof (approved_unique _ _ _ _ HA HA') as <-.
    destruct HR as [-> K|f -> K1 K2|f s -> K1 K2 K3| -> K| -> K1 K2| -> K1 K2| -> K1 K2| -> K1 K2].
    + exact (K HW).
    + rewrite (proj1 (HC f K1)) in K2. discriminate.
    + rewrite (proj2 (HC f K1) s K2) in K3. discriminate.
    + destruct (K HS) as (e & He & Hf). exact (HF e He Hf).
    + exact (proj1 (proj2 (HN K1)) K2).
    + exact (proj1 (proj2 (proj2 (HN K1))) K2).
    + exact (proj1 (HN K1) K2).
    + exact (proj2 (proj2 (proj2 (HN K1))) K2).
  - pose proof (approved_unique _ _ _ _ HA HA') as <-. exists q. auto.
  - pose proof (approved_unique _ _ _ _ HA HA') as <-. exists q. eauto 10.
Qed.
Print Assumptions C65_good_requests_are_served.

(* The assumptions hold of an ordinary request. *)
Definition plain_request : request :=
  authz_request [("response_type", "code"); ("scope", "openid email"); ("nonce", "n1")].
Definition code_flow : flow := Flow FAuthorizationCode false false.
Example C65_example :
  let tr := trace_of answers2 (handle plain_request) in
  exec (handle plain_request) tr (Done true) /\
  approved plain_request client1 tr /\ well_formed default_policy plain_request /\
  asks_for plain_request code_flow /\ c_can_flow client1 (f_type code_flow) = true /\
  (forall s, offline_rule code_flow (form_value plain_request "prompt") (form_value plain_request "scope") s ->
     c_can_scope client1 (f_type code_flow) s = true) /\
  (forall e, In e tr -> ~ fatal e) /\ can_sign demoJ client1 /\
  (exists code, In (Ev OCreateCode (Some code)) tr).
Proof.
  cbv zeta.
  assert (HF : asks_for plain_request code_flow) by (apply judge_asks; vm_compute; reflexivity).
  assert (HNO : ~ has_word "openid email" "offline_access")
    by (intros H; apply has_word_include in H; vm_compute in H; discriminate).
  split; [apply demo_run; vm_compute; reflexivity|].
  split. { split; [discriminate|]. split; [discriminate|]. split; [vm_compute; reflexivity|].
    exists None. eexists. split; [vm_compute; reflexivity|exact I]. }
  split. { exists code_flow. split; [exact HF|]. split; [right; left; reflexivity|]. split; [left; reflexivity|].
    split; [left; reflexivity|]. split; [left; reflexivity|].
    split. { intros s [(H & _)|(_ & ->)]; [contradiction (HNO H)|]. split; [left; discriminate|].
      intros _. apply has_word_include. vm_compute. reflexivity. }
    split; [intros H; contradiction (HNO H)|]. split; [intros H; discriminate H|].
    split; right; vm_compute; discriminate. }
  split; [exact HF|]. split; [reflexivity|].
  split. { intros s [(H & _)|(_ & ->)]; [contradiction (HNO H)|]. vm_compute. reflexivity. }
  split. { intros e He [Hf _]. vm_compute in He.
    repeat (destruct He as [<-|He]; [destruct Hf as [Hf|Hf]; vm_compute in Hf; congruence || exact (Hf eq_refl) || contradiction|]).
    exact He. }
  split. { split; [reflexivity|]. split; [intros; discriminate|]. exists "RS". left. reflexivity. }
  exists "code1". vm_compute. repeat (try (left; reflexivity); right).
Qed.

(** ** C66 One outcome for each request. *)

Theorem C66_one_outcome : forall E pol r tr b,
  exec (handle_request E pol r) tr (Done b) ->
  (exists e, outcomes tr = [e]) \/
  (exists s e, outcomes tr = [s; e] /\ screen_failed s /\ is_answer e /\ b = false).
Proof. intros E pol r tr b H. exact (one_handle E pol r tr b H). Qed.
Print Assumptions C66_one_outcome.

Theorem C66_exactly_one : forall E pol r tr b,
  exec (handle_request E pol r) tr (Done b) -> (forall e, In e tr -> ~ screen_failed e) ->
  exists e, outcomes tr = [e].
Proof.
  intros E pol r tr b H HN. destruct (one_handle E pol r tr b H) as [HO|(s & e & HO & HS & _)]; [exact HO|].
  exfalso. apply (HN s); [|exact HS].
  assert (HI : In s (outcomes tr)) by (rewrite HO; left; reflexivity). apply filter_In in HI. apply HI.
Qed.
Print Assumptions C66_exactly_one.

(* What the returned bool says. *)
Theorem C66_result : forall E pol r tr b,
  exec (handle_request E pol r) tr (Done b) ->
  if b then
    (exists c q, In (Ev (OConsentScreen c q) (Some tt)) tr /\ http_ops tr = []) \/
    (exists mode params, answered mode (form_value r "redirect_uri") params tr /\ ~ In "error" (map fst params))
  else
    (exists n, In (OErrorScreen n) (ops tr)) \/
    (exists mode typ, error_sent mode (form_value r "redirect_uri") (form_value r "state") typ tr) \/
    (exists q, In (OLoginScreen q) (ops tr) /\ http_ops tr = []).
Proof.
  intros E pol r tr b H.
  destruct (handle_justified _ _ _ _ _ H) as [H0 H1 ->|c' m typ HA' H1 HR ->|c' q HA' HV H0 HQ|c' q info pre tc HA' HV H1 H2 H3 ->].
  - left. destruct H0 as (n & H0). exists n.
    assert (HI : In (OErrorScreen n) (filter (fun o => match o with OLog _ _ _ => false | _ => true end) (ops tr)))
      by (rewrite H0; apply in_or_app; right; left; reflexivity).
    apply filter_In in HI. apply HI.
  - right. left. eauto.
  - destruct b; simpl in HQ.
    + left. eauto.
    + right. right. exists q. split; [|exact H0]. destruct HQ as (x & HQ). apply (in_map ev_op) in HQ. exact HQ.
  - right. assert (exists f, rq_flow q = Some f) as [f HF] by (destruct H3; eauto).
    destruct (completed_answer _ _ _ _ _ f H3 HF) as (params & K1 & _ & _ & K2 & _).
    exists (rq_mode q), params. rewrite <- (v_redirect _ _ _ _ HV). split; [|exact K2].
    rewrite H1. apply answered_app; assumption.
Qed.
Print Assumptions C66_result.

(* A world in which no screen can be shown. *)
Definition no_screens (w : answers) : world unit := fun s o =>
  (tt, match o as o0 return ans o0 with
       | OLoginScreen _ => None
       | OConsentScreen _ _ => None
       | o' => snd (answering w s o')
       end).
Definition trace_no_screens (w : answers) (r : request) : list event :=
  snd (fst (run (no_screens w) tt (handle r))).
Lemma run_no_screens w r x : snd (run (no_screens w) tt (handle r)) = x ->
  exec (handle r) (trace_no_screens w r) x.
Proof.
  intros <-. unfold trace_no_screens. destruct (run (no_screens w) tt (handle r)) as [[s tr] y] eqn:E.
  simpl. eapply run_exec; eauto.
Qed.

Definition login_request : request :=
  authz_request [("response_type", "code"); ("scope", "openid email"); ("prompt", "login")].
Definition not_from_login : answers :=
  Answers (w_client answers2) (w_session answers2) (w_active answers2) (w_info answers2)
    (w_access answers2) (w_refresh answers2) (w_token answers2)
    (w_user answers2) (w_disable answers2) (w_record answers2) (w_now answers2) (w_login answers2) (Some false)
    (w_auth_time answers2) (w_login_user answers2) (w_code answers2) (w_subject answers2) (w_continue answers2).

(* If the login screen of prompt=login cannot be shown, nobody gets any answer. *)
Theorem C66_failed_login_screen_refuted :
  exists tr q, exec (handle login_request) tr (Done false) /\
    In (Ev (OLoginScreen q) None) tr /\ http_ops tr = [] /\ List.length (outcomes tr) = 1%nat.
Proof.
  exists (trace_no_screens not_from_login login_request).
  eexists. split; [apply run_no_screens; vm_compute; reflexivity|].
  split; [|split; vm_compute; reflexivity].
  vm_compute. repeat (try (left; reflexivity); right).
Qed.
Print Assumptions C66_failed_login_screen_refuted.

(* If Continue fails, neither CompleteRequest nor CancelRequest answers. *)
Theorem C66_failed_continue_refuted :
  exists tr tr', exec (complete_request demoE default_policy) tr (Done false) /\ outcomes tr = [] /\
    exec (cancel_request demoE) tr' (Done false) /\ outcomes tr' = [].
Proof.
  pose (w := Answers (w_client answers2) (w_session answers2) (w_active answers2) (w_info answers2)
    (w_access answers2) (w_refresh answers2) (w_token answers2)
    (w_user answers2) (w_disable answers2) (w_record answers2) (w_now answers2) (w_login answers2)
    (w_from_login answers2)
    (w_auth_time answers2) (w_login_user answers2) (w_code answers2) (w_subject answers2) None).
  exists (trace_of w (complete_request demoE default_policy)), (trace_of w (cancel_request demoE)).
  split; [apply demo_run; vm_compute; reflexivity|]. split; [vm_compute; reflexivity|].
  split; [apply demo_run; vm_compute; reflexivity|]. vm_compute; reflexivity.
Qed.
Print Assumptions C66_failed_continue_refuted.

Example C66_example :
  exec (handle hybrid_request) (trace_of answers2 (handle hybrid_request)) (Done true) /\
  List.length (outcomes (trace_of answers2 (handle hybrid_request))) = 1%nat /\
  exec (handle consent_request) (trace_no_screens answers2 consent_request) (Done false) /\
  map ev_op (tl (outcomes (trace_no_screens answers2 consent_request))) =
    [ORedirect "https://rp.example/cb?error=server_error&state=s1"].
Proof.
  split; [apply demo_run; vm_compute; reflexivity|]. split; [vm_compute; reflexivity|].
  split; [apply run_no_screens; vm_compute; reflexivity|vm_compute; reflexivity].
Qed.

(** ** C37 again: a policy that admits max_age=0 does not get it enforced. *)
Definition zero_policy : policy :=
  Policy (p_max_max_age default_policy) 0 (p_allow_empty_scope default_policy)
    (p_max_nonce default_policy) (p_max_verifier default_policy) (p_consent_period default_policy)
    (p_session_expires default_policy) (p_idt_expires default_policy)
    (p_code_mode default_policy) (p_implicit_mode default_policy)
    (p_ignore_bad_mode default_policy) (p_level_check default_policy).
Theorem C37_zero_refuted :
  exists tr at_ now, let r := authz_request [("response_type", "code"); ("scope", "openid email"); ("max_age", "0")] in
    exec (handle_request demoE zero_policy r) tr (Done true) /\ existsb issues (ops tr) = true /\
    atoi (form_value r "max_age") = Some 0%Z /\ (0 < now - at_)%Z /\
    In (Ev OAuthTime (Some at_)) tr /\ In (Ev ONow now) tr.
Proof.
  pose (r := authz_request [("response_type", "code"); ("scope", "openid email"); ("max_age", "0")]).
  exists (trace_of (old_login answers2) (handle_request demoE zero_policy r)), 910%Z, 1010%Z. cbv zeta.
  split; [apply demo_run; vm_compute; reflexivity|]. split; [vm_compute; reflexivity|].
  split; [vm_compute; reflexivity|]. split; [reflexivity|].
  split; vm_compute; repeat (try (left; reflexivity); right).
Qed.
Print Assumptions C37_zero_refuted.
