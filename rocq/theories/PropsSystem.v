(** * Histories, schedules and crashes (C09, C10, C11, C53). *)
From Coq Require Import Lia.
From Verif Require Import Core World Spec TokenSpec Grants TokenEndpoint AuthzResponse AuthzEndpoint AuthzSpec TestStore SysSpec Demo
  SysFacts SysTrace StoreFacts SysDemo.

(** ** C09 A code is redeemed at most once (any sequential history). *)

(* Counting: over any data layer that keeps its promises about codes, in any
   history, crashes included, successful exchanges of a code are at most as many
   as the times it was stored, plus one if it was redeemable at the start. *)
Theorem C09_at_most_once : forall S (W : rworld S) ok live s l s' code,
  code_store W ok live -> ok s -> history W s l s' ->
  forall is, NoDup is ->
  (forall i, In i is -> exists p tr, nth_error l i = Some (p, tr) /\ redeemed p tr code) ->
  (length is + (if live s' code then 1 else 0)
   <= (if live s code then 1 else 0) + stored_times code (flat_map snd l))%nat.
Proof.
  intros S W ok live s l s' code L HO HH is HN HI.
  exact (history_bound W ok live L s l s' code HH HO is HN HI).
Qed.
Print Assumptions C09_at_most_once.

(* In particular: if the code is not stored again, no two requests redeem it. *)
Theorem C09_no_replay : forall S (W : rworld S) ok live s l s' code i j p q tr tr',
  code_store W ok live -> ok s -> history W s l s' -> stored_times code (flat_map snd l) = 0%nat ->
  nth_error l i = Some (p, tr) -> redeemed p tr code ->
  nth_error l j = Some (q, tr') -> redeemed q tr' code -> i = j.
Proof.
  intros S W ok live s l s' code i j p q tr tr' L HO HH HZ Hi Ri Hj Rj.
  destruct (Nat.eq_dec i j) as [|HN]; [assumption|exfalso].
  assert (H : (length [i; j] + (if live s' code then 1 else 0) <= (if live s code then 1 else 0) + stored_times code (flat_map snd l))%nat).
  { eapply C09_at_most_once; eauto.
    - constructor; [simpl; intuition|]. constructor; [simpl; tauto|constructor].
    - intros k [<-|[<-|[]]]; eauto. }
  rewrite HZ in H. simpl in H. destruct (live s code), (live s' code); lia.
Qed.
Print Assumptions C09_no_replay.

(* And in the bundled store. *)
Theorem C09_bundled_store : forall b s l s' code i j p q tr tr',
  tidy s -> history (sstep b) s l s' -> stored_times code (flat_map snd l) = 0%nat ->
  nth_error l i = Some (p, tr) -> redeemed p tr code ->
  nth_error l j = Some (q, tr') -> redeemed q tr' code -> i = j.
Proof. intros b s l s' code i j p q tr tr' HT. exact (C09_no_replay _ _ _ _ _ _ _ _ _ _ _ _ _ _ (bundled_code_store b) HT). Qed.
Print Assumptions C09_bundled_store.

(* The hypotheses are met: the first request succeeds, its repetition does not. *)
Lemma store1_tidy : tidy store1.
Proof.
  split; [|split].
  - intros code x. unfold sget. simpl. destruct (seqb code "code1") eqn:E; [|discriminate].
    intros H. injection H as <-. symmetry. apply seqb_eq. exact E.
  - intros id i [H|[]]. injection H as <- <-. simpl. lia.
  - repeat constructor. simpl. tauto.
Qed.

Example C09_example :
  let '(t1, _, s1) := srun false (answers1 "") 100 store1 (demo_token code_request) in
  let '(t2, _, s2) := srun false (answers1 "") 100 s1 (demo_token code_request) in
  history (sstep false) store1 [(demo_token code_request, t1); (demo_token code_request, t2)] s2 /\
  redeemed (demo_token code_request) t1 "code1" /\ statuses t2 = [400%Z] /\
  stored_times "code1" (t1 ++ t2) = 0%nat.
Proof.
  destruct (srun false (answers1 "") 100 store1 (demo_token code_request)) as [[t1 q1] s1] eqn:E1.
  destruct (srun false (answers1 "") 100 s1 (demo_token code_request)) as [[t2 q2] s2] eqn:E2.
  split; [|split].
  - econstructor; [eapply srun_rsteps; exact E1|]. econstructor; [eapply srun_rsteps; exact E2|]. constructor.
  - split; [exact demo_presents|]. vm_compute in E1. injection E1 as <- <- <-. vm_compute. auto.
  - vm_compute in E1. injection E1 as <- <- <-. vm_compute in E2. injection E2 as <- <- <-. vm_compute. auto.
Qed.

(** ** C10 A code is redeemed at most once (any interleaving). *)

(* Holds if DisableSession refuses a session that is disabled already. *)
Theorem C10_at_most_once : forall S (W : rworld S) ok live s0 progs s ths code,
  code_store W ok live -> strict_disable W ok live -> ok s0 ->
  psteps W (s0, map start progs) (s, ths) ->
  forall is, NoDup is ->
  (forall i, In i is -> exists p th, nth_error progs i = Some p /\ nth_error ths i = Some th /\
     redeemed p (th_past th) code) ->
  (length is + (if live s code then 1 else 0)
   <= (if live s0 code then 1 else 0) + stored_times code (all_events ths))%nat.
Proof.
  intros S W ok live s0 progs s ths code L HS HO HP is HN HI.
  exact (interleaving_bound W ok live L s0 progs s ths code HP HO HS is HN HI).
Qed.
Print Assumptions C10_at_most_once.

Theorem C10_no_replay : forall S (W : rworld S) ok live s0 progs s ths code i j p q th th',
  code_store W ok live -> strict_disable W ok live -> ok s0 ->
  psteps W (s0, map start progs) (s, ths) -> stored_times code (all_events ths) = 0%nat ->
  nth_error progs i = Some p -> nth_error ths i = Some th -> redeemed p (th_past th) code ->
  nth_error progs j = Some q -> nth_error ths j = Some th' -> redeemed q (th_past th') code -> i = j.
Proof.
  intros S W ok live s0 progs s ths code i j p q th th' L HS HO HP HZ Pi Ti Ri Pj Tj Rj.
  destruct (Nat.eq_dec i j) as [|HN]; [assumption|exfalso].
  assert (H : (length [i; j] + (if live s code then 1 else 0) <= (if live s0 code then 1 else 0) + stored_times code (all_events ths))%nat).
  { eapply C10_at_most_once; eauto.
    - constructor; [simpl; intuition|]. constructor; [simpl; tauto|constructor].
    - intros k [<-|[<-|[]]]; eauto 6. }
  rewrite HZ in H. simpl in H. destruct (live s code), (live s0 code); lia.
Qed.
Print Assumptions C10_no_replay.

(* A store like the bundled one, but strict: satisfies the hypotheses. *)
Theorem C10_strict_store : forall s0 progs s ths code i j p q th th', tidy s0 ->
  psteps (sstep true) (s0, map start progs) (s, ths) -> stored_times code (all_events ths) = 0%nat ->
  nth_error progs i = Some p -> nth_error ths i = Some th -> redeemed p (th_past th) code ->
  nth_error progs j = Some q -> nth_error ths j = Some th' -> redeemed q (th_past th') code -> i = j.
Proof.
  intros s0 progs s ths code i j p q th th' HT.
  exact (C10_no_replay _ _ _ _ _ _ _ _ _ _ _ _ _ _ _ (bundled_code_store true) bundled_strict HT).
Qed.
Print Assumptions C10_strict_store.

(* The bundled store, whose DisableSession always succeeds: two concurrent
   requests redeem the same code. *)
Definition race : list nat := (repeat 0 5 ++ repeat 1 14 ++ repeat 0 9)%nat%list.
Theorem C10_refuted :
  exists s0 p s th th',
    tidy s0 /\ psteps (sstep false) (s0, map start [p; p]) (s, [th; th']) /\
    stored_times "code1" (all_events [th; th']) = 0%nat /\
    redeemed p (th_past th) "code1" /\ redeemed p (th_past th') "code1".
Proof.
  exists store1, (demo_token code_request).
  destruct (sched false (answers1 "") race store1 (map start [demo_token code_request; demo_token code_request]))
    as [s ths] eqn:E.
  pose proof (sched_psteps _ _ _ _ _ _ _ E) as HP. vm_compute in E. injection E as <- <-.
  eexists _, _, _. split; [exact store1_tidy|]. split; [exact HP|]. split; [vm_compute; reflexivity|].
  split; (split; [exact demo_presents|vm_compute; auto]).
Qed.
Print Assumptions C10_refuted.

(* Over the strict store the same schedule lets one of them fail. *)
Example C10_example :
  let '(s, ths) := sched true (answers1 "") race store1 (map start [demo_token code_request; demo_token code_request]) in
  psteps (sstep true) (store1, map start [demo_token code_request; demo_token code_request]) (s, ths) /\
  map (fun th => statuses (th_past th)) ths = [[400%Z]; [200%Z]].
Proof.
  destruct (sched true (answers1 "") race store1 (map start [demo_token code_request; demo_token code_request])) as [s ths] eqn:E.
  split; [exact (sched_psteps _ _ _ _ _ _ _ E)|]. vm_compute in E. injection E as <- <-. vm_compute. reflexivity.
Qed.

(** ** C11 Crash atomicity of the code exchange. *)

(* Violated: after a crash between the two calls a token exists and the code can
   be exchanged for another one. *)
Theorem C11_refuted :
  exists s0 p t1 q1 s1 tok t2 q2 s2 tok',
    tidy s0 /\ st_tokens s0 = [] /\ presents p "code1" /\
    rsteps (sstep false) s0 p t1 q1 s1 /\ In ("ACCESS_TOKEN_7", tok) (st_tokens s1) /\
    has_session s1 "code1" = true /\
    rsteps (sstep false) s1 p t2 q2 s2 /\ redeemed p t2 "code1" /\
    In (Some tok', None) (flat_map (fun e => match e with Ev (OCreateToken _ _) a => [a] | _ => [] end) t2).
Proof.
  exists store1, (demo_token code_request).
  pose (R1 := srun false (answers1 "") 5 store1 (demo_token code_request)).
  pose (R2 := srun false (answers1 "") 100 (snd R1) (demo_token code_request)).
  exists (fst (fst R1)), (snd (fst R1)), (snd R1), (created_token info1 1010 1010),
         (fst (fst R2)), (snd (fst R2)), (snd R2), (created_token info1 1010 1010).
  assert (X1 : st_tokens (snd R1) = [("ACCESS_TOKEN_7", created_token info1 1010 1010)]) by (vm_compute; reflexivity).
  assert (X2 : has_session (snd R1) "code1" = true) by (vm_compute; reflexivity).
  assert (X3 : statuses (fst (fst R2)) = [200%Z]) by (vm_compute; reflexivity).
  assert (X4 : flat_map (fun e => match e with Ev (OCreateToken _ _) a => [a] | _ => [] end) (fst (fst R2))
               = [(Some (created_token info1 1010 1010), None)]) by (vm_compute; reflexivity).
  split; [exact store1_tidy|]. split; [reflexivity|]. split; [exact demo_presents|].
  split; [apply srun_rsteps with (n := 5%nat) (w := answers1 ""); unfold R1; destruct (srun _ _ _ _ _) as [[? ?] ?]; reflexivity|].
  split; [rewrite X1; left; reflexivity|]. split; [exact X2|].
  split; [apply srun_rsteps with (n := 100%nat) (w := answers1 ""); unfold R2; destruct (srun _ _ _ (snd R1) _) as [[? ?] ?]; reflexivity|].
  split; [split; [exact demo_presents|rewrite X3; left; reflexivity]|]. rewrite X4. left. reflexivity.
Qed.
Print Assumptions C11_refuted.

(* What holds, at every crash point of every entry point, over every data layer
   in which codes stop being redeemable only through DisableSession: if a code has
   stopped being redeemable then the run was a token request of an authenticated
   client that presented it and passed all checks, and a token was created before. *)
Theorem C11_no_code_lost_without_token : forall S (W : rworld S) ok live s p past q s' code,
  code_store W ok live -> durable W ok live -> ok s -> goidc p ->
  rsteps W s p past q s' -> live s code = true -> live s' code = false ->
  exists J te r c now ta info tok sess a t1 t2 t3,
    p = token_handler J te r /\ authenticated J te r c ta /\ code_checks r c sess info /\
    form_value r "code" = code /\
    past = (ta ++ Ev ONow now :: t1 ++ Ev (OCreateToken (Some info) true) (Some tok, None) ::
            t2 ++ Ev (ODisable sess) a :: t3)%list.
Proof. intros S W ok live s p past q s' code. apply disabled_after_token. Qed.
Print Assumptions C11_no_code_lost_without_token.

Theorem C11_bundled_store : forall b s p past q s' code, tidy s -> goidc p ->
  rsteps (sstep b) s p past q s' -> has_session s code = true -> has_session s' code = false ->
  exists info tok, In (Ev (OCreateToken (Some info) true) (Some tok, None)) past.
Proof.
  intros b s p past q s' code HT HG HR H1 H2.
  destruct (C11_no_code_lost_without_token _ _ _ _ _ _ _ _ _ _ (bundled_code_store b) (bundled_durable b) HT HG HR H1 H2)
    as (J & te & r & c & now & ta & info & tok & sess & a & t1 & t2 & t3 & _ & _ & _ & _ & ->).
  exists info, tok. apply in_or_app. right. right. apply in_or_app. right. left. reflexivity.
Qed.
Print Assumptions C11_bundled_store.

Example C11_example :
  let R := srun false (answers1 "") 6 store1 (demo_token code_request) in
  goidc (demo_token code_request) /\
  rsteps (sstep false) store1 (demo_token code_request) (fst (fst R)) (snd (fst R)) (snd R) /\
  has_session store1 "code1" = true /\ has_session (snd R) "code1" = false /\ length (fst (fst R)) = 6%nat.
Proof.
  intros R.
  assert (X1 : has_session (snd R) "code1" = false) by (vm_compute; reflexivity).
  assert (X2 : length (fst (fst R)) = 6%nat) by (vm_compute; reflexivity).
  split; [apply g_token; exact te0_bundled|].
  split; [apply srun_rsteps with (n := 6%nat) (w := answers1 ""); unfold R; destruct (srun _ _ _ _ _) as [[? ?] ?]; reflexivity|].
  split; [reflexivity|]. split; [exact X1|exact X2].
Qed.

(** ** C53 End to end: tokens trace back to a consent. *)

(* Over any data layer that keeps its promises about sessions and
   authorizations, in any interleaving of any number of calls of goidc's entry
   points, from a state in which the code is not in use. *)
Theorem C53_traced : forall S (W : rworld S) ok sess auth s0 progs s ths n J te r th,
  linked_store W ok sess auth -> ok s0 -> sess s0 (form_value r "code") = None -> Forall goidc progs ->
  psteps W (s0, map start progs) (s, ths) ->
  only_bundled J te -> registered te (form_value r "grant_type") (authorization_code J) ->
  nth_error progs n = Some (token_handler J te r) -> nth_error ths n = Some th ->
  In 200%Z (statuses (th_past th)) ->
  exists c ta info tok m p th',
    authenticated J te r c ta /\ (exists rest, th_past th = (ta ++ rest)%list) /\
    In (Ev (OCreateToken (Some info) true) (Some tok, None)) (th_past th) /\
    nth_error progs m = Some p /\ nth_error ths m = Some th' /\ traced r c info p (th_past th').
Proof.
  intros S W ok sess auth s0 progs s ths n J te r th L HO HN HG HP HB HR Hn Hth H200.
  exact (redeemed_traced W ok sess auth L s0 progs s ths n J te r th HP HO HN HG HB HR Hn Hth H200).
Qed.
Print Assumptions C53_traced.

(* Over the bundled store. *)
Theorem C53_bundled_store : forall b s0 progs s ths n J te r th,
  tidy s0 -> has_session s0 (form_value r "code") = false -> Forall goidc progs ->
  psteps (sstep b) (s0, map start progs) (s, ths) ->
  only_bundled J te -> registered te (form_value r "grant_type") (authorization_code J) ->
  nth_error progs n = Some (token_handler J te r) -> nth_error ths n = Some th ->
  In 200%Z (statuses (th_past th)) ->
  exists c ta info tok m p th',
    authenticated J te r c ta /\ (exists rest, th_past th = (ta ++ rest)%list) /\
    In (Ev (OCreateToken (Some info) true) (Some tok, None)) (th_past th) /\
    nth_error progs m = Some p /\ nth_error ths m = Some th' /\ traced r c info p (th_past th').
Proof.
  intros b s0 progs s ths n J te r th HT HN HG HP. 
  eapply C53_traced; [exact (bundled_linked b)|exact HT| |exact HG|exact HP].
  unfold has_session in HN. cbv beta. destruct (sget (form_value r "code") (st_sessions s0)); [discriminate|reflexivity].
Qed.
Print Assumptions C53_bundled_store.

(* There FindAuthInfoByUserIdAndClientId never succeeds, so that the code was
   created by a CompleteRequest in which the consent of the user was recorded. *)
Theorem C53_bundled_store_consent : forall b s0 progs s ths n J te r th,
  tidy s0 -> has_session s0 (form_value r "code") = false -> Forall goidc progs ->
  psteps (sstep b) (s0, map start progs) (s, ths) ->
  only_bundled J te -> registered te (form_value r "grant_type") (authorization_code J) ->
  nth_error progs n = Some (token_handler J te r) -> nth_error ths n = Some th ->
  In 200%Z (statuses (th_past th)) ->
  exists c ta info m E pol th' q,
    authenticated J te r c ta /\ (exists rest, th_past th = (ta ++ rest)%list) /\
    nth_error progs m = Some (done (complete_request E pol)) /\ nth_error ths m = Some th' /\
    rq_client q = c_id c /\ rq_redirect q = form_value r "redirect_uri" /\ pkce_passed r (rq_verifier q) /\
    In (Ev OContinue (Some (Some q))) (th_past th') /\
    In (Ev OLoginUser (Some (ai_user info))) (th_past th') /\
    In (OCreateInfo (ai_user info) (rq_client q) (rq_scope q)) (ops (th_past th')).
Proof.
  intros b s0 progs s ths n J te r th HT HN HG HP HB HR Hn Hth H200.
  destruct (C53_bundled_store b s0 progs s ths n J te r th HT HN HG HP HB HR Hn Hth H200)
    as (c & ta & info & tok & m & p & th' & HA & HPre & _ & Hp & Hm & pol & q & i & y & _ & _ & K1 & K2 & K3 & K4 & K5).
  destruct K5 as [(E & -> & L1 & L2)|(E & r' & c' & -> & _ & _ & uid & now & (a & b' & Hseg) & _)].
  - exists c, ta, info, m, E, pol, th', q. repeat (split; [assumption|]).
    change (OCreateInfo (ai_user info) (rq_client q) (rq_scope q)) with
      (ev_op (Ev (OCreateInfo (ai_user info) (rq_client q) (rq_scope q)) (Some i, None))).
    apply in_map. exact L2.
  - exfalso.
    assert (HI : In (Ev (OFindInfo uid (rq_client q)) (Some i, None)) (all_events ths)).
    { unfold all_events. apply in_flat_map. exists th'. split; [eapply nth_error_In; eauto|].
      rewrite Hseg. apply in_or_app. right. simpl. auto. }
    destruct (psteps_events _ _ _ HP _ _ eq_refl _ _ HI) as (s1 & s2 & HW).
    exact (find_info_never _ _ _ _ _ _ HW).
Qed.
Print Assumptions C53_bundled_store_consent.

(* The user agrees, then the client redeems the code. *)
Example C53_example :
  let progs := [demo_complete; demo_token plain_request] in
  let '(s, ths) := sched false agreeing (repeat 0 7 ++ repeat 1 14)%nat%list store0 (map start progs) in
  tidy store0 /\ has_session store0 (form_value plain_request "code") = false /\ Forall goidc progs /\
  psteps (sstep false) (store0, map start progs) (s, ths) /\
  map (fun th => statuses (th_past th)) ths = [[]; [200%Z]].
Proof.
  cbv zeta.
  destruct (sched false agreeing (repeat 0 7 ++ repeat 1 14)%nat%list store0 (map start [demo_complete; demo_token plain_request])) as [s ths] eqn:E.
  split; [|split; [reflexivity|split; [|split; [exact (sched_psteps _ _ _ _ _ _ _ E)|]]]].
  - split; [|split]; [intros code x H; discriminate|intros id i []|constructor].
  - constructor; [apply g_complete|]. constructor; [apply g_token; exact te0_bundled|constructor].
  - vm_compute in E. injection E as <- <-. vm_compute. reflexivity.
Qed.
