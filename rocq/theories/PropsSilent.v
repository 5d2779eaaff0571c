(** * What the authorization endpoint gives out without asking works (C76, C77). *)
From Coq Require Import Lia.
From Verif Require Import Core World Spec TokenSpec Grants TokenEndpoint AuthzResponse AuthzEndpoint AuthzSpec AuthzProofs ResourceProtector
  ResourceSpec TestStore SysSpec TraceSpec IsolSpec WorkSpec Hoare Demo SysFacts SysTrace StoreFacts SysDemo ResourceFacts TraceFacts
  IsolFacts LeakFacts WorkFacts RedeemFacts PropsResource PropsTrace PropsIsol PropsWork.

Lemma done_exec {A} (p : prog A) tr : exec (done p) tr (Done tt) -> exists a, exec p tr (Done a).
Proof.
  unfold done. intros H. apply exec_bind in H. destruct H as [(t1 & t2 & a & H1 & H2 & ->)|[_ H]]; [|discriminate].
  apply exec_inv in H2. destruct H2 as [-> _]. rewrite app_nil_r. eauto.
Qed.

(** Whatever HandleRequest did, it wrote nothing, or sent an error, or sent
    [params] for the request [q] it had validated. *)
Definition handled_with (pol : policy) (r : request) (tr : list event) (good : arequest -> kvs -> Prop) : Prop :=
  http_ops tr = [] \/
  (exists mode typ, error_sent mode (form_value r "redirect_uri") (form_value r "state") typ tr) \/
  exists c q params, approved r c tr /\ validated pol r c q /\ answered (rq_mode q) (rq_redirect q) params tr /\ good q params.

(** ** C76 *)

(* A token sent without asking the user is on record, for an authorization of the
   client. *)
Theorem C76_silent_tokens_are_on_record :
  forall S (W : rworld S) ok sess auth tok genuine E pol r s tr s',
  linked_store W ok sess auth -> separate_store W ok sess auth tok genuine -> answering_store W ok sess auth tok ->
  ok s -> rsteps W s (done (handle_request E pol r)) tr (Ret tt) s' ->
  handled_with pol r tr (fun q params => forall t, In ("access_token", t) params ->
    exists k i, tok s' t = Some k /\ auth s' (ot_auth_id k) = Some i /\ ai_client i = rq_client q).
Proof.
  intros S W ok sess auth tok genuine E pol r s tr s' L P A HO HR.
  assert (He : exists b, exec (handle_request E pol r) tr (Done b)).
  { apply done_exec. rewrite <- (app_nil_r tr). eapply steps_exec; [exact (rsteps_steps _ _ _ _ _ _ HR)|constructor]. }
  destruct He as [b He].
  destruct (handle_given W ok sess auth tok genuine L P A _ _ _ _ _ _ _ HR He HO) as [H|[H|(c & q & params & H1 & H2 & H3 & _ & H5)]];
    [left; exact H|right; left; exact H|]. right. right. exists c, q, params. do 3 (split; [assumption|]).
  intros t Ht. destruct (H5 _ Ht) as (i & Hi & k & _ & K1 & K2 & K3). exists k, i. rewrite K2. auto.
Qed.
Print Assumptions C76_silent_tokens_are_on_record.

(** ** C77 *)

(* A code sent without asking the user is on record for the client, with the redirect
   URI and the code challenge of the request. *)
Theorem C77_silent_codes_are_on_record :
  forall S (W : rworld S) ok sess auth tok genuine E pol r s tr s',
  linked_store W ok sess auth -> separate_store W ok sess auth tok genuine -> answering_store W ok sess auth tok ->
  ok s -> rsteps W s (done (handle_request E pol r)) tr (Ret tt) s' ->
  handled_with pol r tr (fun q params => forall code, In ("code", code) params ->
    exists x i, sess s' code = Some x /\ auth s' (as_auth_id x) = Some i /\ ai_client i = rq_client q /\
      as_redirect x = rq_redirect q /\ as_verifier x = rq_verifier q).
Proof.
  intros S W ok sess auth tok genuine E pol r s tr s' L P A HO HR.
  assert (He : exists b, exec (handle_request E pol r) tr (Done b)).
  { apply done_exec. rewrite <- (app_nil_r tr). eapply steps_exec; [exact (rsteps_steps _ _ _ _ _ _ HR)|constructor]. }
  destruct He as [b He].
  destruct (handle_given W ok sess auth tok genuine L P A _ _ _ _ _ _ _ HR He HO) as [H|[H|(c & q & params & H1 & H2 & H3 & H4 & _)]];
    [left; exact H|right; left; exact H|]. right. right. exists c, q, params. do 3 (split; [assumption|]).
  intros code Ht. destruct (H4 _ Ht) as (i & Hi & x & K1 & K2 & K3 & K4 & K5). exists x, i. rewrite K2. auto.
Qed.
Print Assumptions C77_silent_codes_are_on_record.

(* So, whatever others do afterwards, the client gets its tokens for the code, if it
   repeats the redirect URI of its authorization request and meets the challenge. *)
Theorem C77_silent_codes_can_be_redeemed :
  forall S (W : rworld S) ok sess auth tok genuine E pol r0 s tr s1 progs s2 ths,
  linked_store W ok sess auth -> separate_store W ok sess auth tok genuine -> answering_store W ok sess auth tok ->
  ok s -> rsteps W s (done (handle_request E pol r0)) tr (Ret tt) s1 ->
  Forall goidc progs -> psteps W (s1, map start progs) (s2, ths) ->
  handled_with pol r0 tr (fun q params =>
    forall m J te r c th,
      In ("code", form_value r "code") params ->
      nth_error progs m = Some (token_handler J te r) -> registered te (form_value r "grant_type") (authorization_code J) ->
      nth_error ths m = Some th -> th_rest th = Ret tt -> signed_in J te r c (th_past th) -> c_id c = form_value r0 "client_id" ->
      form_value r "code" <> "" -> form_value r "redirect_uri" = form_value r0 "redirect_uri" ->
      (form_value r0 "code_verifier" <> "" -> form_value r "code_challenge" <> "" /\ pkce_passed r (form_value r0 "code_verifier")) ->
      can_sign J c ->
      (forall n p th', n <> m -> nth_error progs n = Some p -> nth_error ths n = Some th' -> ~ acts_for (c_id c) p (th_past th')) ->
      (forall e, In e (all_events ths) -> stores (form_value r "code") (ev_op e) = false) ->
      In 200%Z (statuses (th_past th))).
Proof.
  intros S W ok sess auth tok genuine E pol r0 s tr s1 progs s2 ths L P A HO HR HG HP.
  destruct (C77_silent_codes_are_on_record _ _ _ _ _ _ _ _ _ _ _ _ _ L P A HO HR) as [H|[H|(c0 & q & params & H1 & H2 & H3 & H4)]];
    [left; exact H|right; left; exact H|]. right. right. exists c0, q, params. do 3 (split; [assumption|]).
  intros m J te r c th Hin Hm HReg Hth HE HSig Hc N1 N2 HV HO2 HN HSt.
  destruct (H4 _ Hin) as (x & i & X1 & X2 & X3 & X4 & X5).
  pose proof (v_client _ _ _ _ H2) as V1. pose proof (v_redirect _ _ _ _ H2) as V2. pose proof (proj1 (v_verifier _ _ _ _ H2)) as V3.
  pose proof H1 as (_ & HU & _ & _).
  assert (HO1 : ok s1) by (eapply (rsteps_inv_ok _ _ _ _ L); eauto).
  apply (C77_codes_on_record_can_be_redeemed _ _ _ _ _ _ _ s1 [] s1 [] progs s2 ths x i m J te r c th L P A HO1 (Forall_nil _) HG (psteps_refl _ _) X1 X2); auto.
  - intros z [].
  - intros n p th1 th2 Hn Hp _ Ht2. right. rewrite X3, V1, <- Hc. exact (HN n p th2 Hn Hp Ht2).
  - intros e (n & th1 & th2 & t & E1 & E2 & E3 & E4). apply HSt. unfold all_events. apply in_flat_map.
    exists th2. split; [eapply nth_error_In; eauto|]. rewrite E3. apply in_or_app. auto.
  - split; [congruence|]. split; [exact N1|]. split; [congruence|]. split; [congruence|]. rewrite X5, V3.
    destruct (string_dec (form_value r0 "code_verifier") "") as [Ev|Ev]; [left; exact Ev|]. exact (proj2 (HV Ev)).
  - intros Hv. rewrite X5, V3 in Hv. exact (proj1 (HV Hv)).
Qed.
Print Assumptions C77_silent_codes_can_be_redeemed.

(** ** A store for which this matters

    The bundled store answers FindAuthInfoByUserIdAndClientId with an error, so over
    it nothing is given out without asking (C53_bundled_store_consent).  This one is the bundled store with
    that lookup done as CreateOrUpdateAuthInfo does it (test_helper/store.go:109-116). *)
Inductive mstep : rworld store :=
| ms_bundled s o a s' : sstep true s o a s' -> (forall uid cid, o <> OFindInfo uid cid) -> mstep s o a s'
| ms_found s uid cid id i : In (id, i) (st_infos s) -> same_user_client uid cid (id, i) = true ->
    mstep s (OFindInfo uid cid) (Some i, None) s
| ms_unknown s uid cid : (forall p, In p (st_infos s) -> same_user_client uid cid p = false) ->
    mstep s (OFindInfo uid cid) failed s.

Lemma mstep_cases s o a s' : mstep s o a s' -> sstep true s o a s' \/ (s' = s /\ exists uid cid, o = OFindInfo uid cid).
Proof. intros H. destruct H; [left; assumption|right|right]; eauto. Qed.

Lemma mstep_sstep s o a s' : mstep s o a s' -> (forall uid cid, o <> OFindInfo uid cid) -> sstep true s o a s'.
Proof. intros H N. destruct (mstep_cases _ _ _ _ H) as [X|(_ & uid & cid & X)]; [exact X|]. destruct (N _ _ X). Qed.

Definition lookup_ans (e : event) : option (dres authinfo) :=
  match e with Ev o a => (match o as o0 return ans o0 -> option (dres authinfo) with OFindInfo _ _ => fun a => Some a | _ => fun _ => None end) a end.

Lemma remembering_linked : linked_store mstep tidiest (fun s code => sget code (st_sessions s)) (fun s id => zget id (st_infos s)).
Proof.
  destruct (bundled_linked3 true) as [L0 L1 L2 L3 L4 L5 L6]. constructor.
  - intros s o a s' HO H. destruct (mstep_cases _ _ _ _ H) as [X|[-> _]]; eauto.
  - intros s code x s' HO H. apply mstep_sstep in H; [eauto|discriminate].
  - intros s o a s' code x HO H HX. destruct (mstep_cases _ _ _ _ H) as [X|[-> _]]; eauto.
  - intros s id i s' HO H. apply mstep_sstep in H; [eauto|discriminate].
  - intros s uid cid i s' HO H.
    assert (X : In (ai_id i, i) (st_infos s) /\ same_user_client uid cid (ai_id i, i) = true).
    { remember (Ev (OFindInfo uid cid) (Some i, None)) as e eqn:Ee.
      assert (G : forall o a, mstep s o a s' -> Ev o a = e -> In (ai_id i, i) (st_infos s) /\ same_user_client uid cid (ai_id i, i) = true).
      { intros o a Ho Ex. rewrite Ee in Ex. destruct Ho as [s o a s' _ N|s u c id j HI HS|s u c _].
        - apply (f_equal ev_op) in Ex. destruct (N _ _ Ex).
        - pose proof (f_equal ev_op Ex) as Eo. injection Eo as -> ->. apply (f_equal lookup_ans) in Ex. injection Ex as ->.
          destruct HO as [[(_ & T2 & _) _] _]. pose proof (proj1 (T2 _ _ HI)) as Hid. subst id. auto.
        - pose proof (f_equal ev_op Ex) as Eo. injection Eo as -> ->. apply (f_equal lookup_ans) in Ex. discriminate. }
      exact (G _ _ H (eq_sym Ee)). }
    destruct X as [HI HS]. unfold same_user_client in HS. apply andb_true_iff in HS. destruct HS as [S1 S2]. simpl in S1, S2.
    apply Z.eqb_eq in S1. apply seqb_eq in S2. split; [|auto].
    destruct HO as [[(_ & _ & T3) _] _]. apply nodup_get; assumption.
  - intros s uid cid scope i s' HO H. apply mstep_sstep in H; [eauto|discriminate].
  - intros s o a s' id i HO H HX. destruct (mstep_cases _ _ _ _ H) as [X|[-> _]]; [eauto|]. exists i. split; [exact HX|]. split; reflexivity.
Qed.

Lemma remembering_separate : separate_store mstep tidiest (fun s code => sget code (st_sessions s))
  (fun s id => zget id (st_infos s)) (fun s t => sget t (st_tokens s)) genuine_token.
Proof.
  destruct (bundled_separate true) as [P1 P2 P3 P4 P5]. constructor.
  - intros s o a s' id i HO H HX. destruct (mstep_cases _ _ _ _ H) as [X|[-> _]]; eauto.
  - intros s o a s' id i HO H HX. destruct (mstep_cases _ _ _ _ H) as [X|[-> _]]; eauto.
  - intros s t k s' HO H. apply mstep_sstep in H; [eauto|discriminate].
  - intros s o a s' id i HO H HX. destruct (mstep_cases _ _ _ _ H) as [X|[-> _]]; eauto.
  - intros s t k s' HO H. apply mstep_sstep in H; [eauto|discriminate].
Qed.
Lemma remembering_answering : answering_store mstep tidiest (fun s code => sget code (st_sessions s))
  (fun s id => zget id (st_infos s)) (fun s t => sget t (st_tokens s)).
Proof.
  destruct (bundled_answering true) as [A1 A2 A3 A4 A5 A6 A7 A8 A9]. constructor.
  - intros s t k a s' HO HX H. apply mstep_sstep in H; [eauto|discriminate].
  - intros s t k a s' HO HX H. apply mstep_sstep in H; [eauto|discriminate].
  - intros s t k a s' HO HX H. apply mstep_sstep in H; [eauto|discriminate].
  - intros s i c a s' HO H. apply mstep_sstep in H; [eauto|discriminate].
  - intros s t k s' HO H. apply mstep_sstep in H; [eauto|discriminate].
  - intros s i old k s' HO H. apply mstep_sstep in H; [eauto|discriminate].
  - intros s x a s' HO HX H. apply mstep_sstep in H; [eauto|discriminate].
  - intros s uid cid scope x s' HO H. apply mstep_sstep in H; [eauto|discriminate].
  - intros s i y s' HO H. apply mstep_sstep in H; [eauto|discriminate].
Qed.

(** Running it. *)
Definition mfun (w : answers) (s : store) (o : op) : option (ans o * store) :=
  match o as o0 return option (ans o0 * store) with
  | OFindInfo uid cid =>
      Some (match find (same_user_client uid cid) (st_infos s) with Some (_, i) => (Some i, None) | None => failed end, s)
  | o => sfun true w s o
  end.
Lemma mfun_step w s o a s' : mfun w s o = Some (a, s') -> mstep s o a s'.
Proof.
  destruct o; try (intros H; apply ms_bundled; [exact (sfun_step true w _ _ _ _ H)|discriminate]).
  cbn [mfun]. intros H. destruct (find _ (st_infos s)) as [[id i]|] eqn:E; injection H as <- <-.
  - apply find_some in E. destruct E as [E1 E2]. eapply ms_found; eauto.
  - apply ms_unknown. intros p Hp. exact (find_none _ _ E p Hp).
Qed.
Fixpoint mrun (w : answers) (n : nat) (s : store) (p : prog unit) : list event * prog unit * store :=
  match n, p with
  | Datatypes.S n, Vis o k =>
      match mfun w s o with
      | Some (a, s1) => let '(t, q, s') := mrun w n s1 (k a) in (Ev o a :: t, q, s')
      | None => ([], p, s)
      end
  | _, _ => ([], p, s)
  end.
Lemma mrun_rsteps w n : forall s p, rsteps mstep s p (fst (fst (mrun w n s p))) (snd (fst (mrun w n s p))) (snd (mrun w n s p)).
Proof.
  induction n as [|n IH]; intros s p; simpl; [constructor|].
  destruct p as [a| |o k]; try constructor.
  destruct (mfun w s o) as [[a s1]|] eqn:E; [|constructor].
  specialize (IH s1 (k a)). destruct (mrun w n s1 (k a)) as [[t q'] s2]. simpl in *.
  econstructor; [eapply mfun_step; eauto|exact IH].
Qed.
Lemma rsteps_psteps {S} (W : rworld S) s (p : prog unit) tr q s' : rsteps W s p tr q s' -> forall past,
  psteps W (s, [Thread past p]) (s', [Thread (past ++ tr) q]).
Proof.
  induction 1 as [s p|s o k x s1 tr q s2 HW HR IH]; intros past; [rewrite app_nil_r; constructor|].
  eapply psteps_trans; [|specialize (IH (past ++ [Ev o x])%list); rewrite <- app_assoc in IH; exact IH].
  econstructor; [constructor|]. exact (pstep_one W s s1 [] past o k x [] HW).
Qed.

(** User 42 has consented; client1 asks for a code, gets it at once, and redeems it. *)
Definition silent_store : store :=
  Store 8 [] [("client1", client1)] [(7%Z, AuthInfo 7 "client1" 42 "subject-7" "openid email" 1000 true)] [] [].
Definition silent_request : request :=
  Request "GET" "/authorize" []
    [("client_id", "client1"); ("redirect_uri", "https://rp.example/cb"); ("state", "s1"); ("response_type", "code token");
     ("scope", "email openid"); ("nonce", "n1"); ("code_verifier", "a-code-verifier")] [].
Definition silent_prog : prog unit := done (handle_request (Env demoJ (fun _ => true)) default_policy silent_request).
Definition silent_run := mrun agreeing 40 silent_store silent_prog.
Definition redeem_run := mrun agreeing 40 (snd silent_run) (demo_token plain_request).

Lemma silent_tidiest : tidiest silent_store.
Proof.
  split; [split; [split; [|split]|]|].
  - intros code x H. discriminate.
  - intros id i [H|[]]. injection H as <- <-; split; reflexivity.
  - repeat constructor. intros [].
  - constructor.
  - intros t k [].
Qed.
Example C77_silent_example :
  let s1 := snd silent_run in
  let th := Thread (fst (fst redeem_run)) (snd (fst redeem_run)) in
  linked_store mstep tidiest (fun s code => sget code (st_sessions s)) (fun s id => zget id (st_infos s)) /\
  separate_store mstep tidiest (fun s code => sget code (st_sessions s)) (fun s id => zget id (st_infos s))
    (fun s t => sget t (st_tokens s)) genuine_token /\
  answering_store mstep tidiest (fun s code => sget code (st_sessions s)) (fun s id => zget id (st_infos s))
    (fun s t => sget t (st_tokens s)) /\
  tidiest silent_store /\ rsteps mstep silent_store silent_prog (fst (fst silent_run)) (Ret tt) s1 /\
  http_ops (fst (fst silent_run)) = [ORedirect
    "https://rp.example/cb#access_token=ACCESS_TOKEN_7&code=code1&expires_in=86400&scope=email+openid&state=s1&token_type=bearer"] /\
  option_map ot_auth_id (sget "ACCESS_TOKEN_7" (st_tokens s1)) = Some 7%Z /\
  option_map as_redirect (sget "code1" (st_sessions s1)) = Some "https://rp.example/cb" /\
  Forall goidc [demo_token plain_request] /\
  psteps mstep (s1, map start [demo_token plain_request]) (snd redeem_run, [th]) /\ th_rest th = Ret tt /\
  registered te0 (form_value plain_request "grant_type") (authorization_code demoJ) /\
  signed_in demoJ te0 plain_request client1 (th_past th) /\ c_id client1 = form_value silent_request "client_id" /\
  form_value plain_request "code" = "code1" /\
  form_value plain_request "redirect_uri" = form_value silent_request "redirect_uri" /\
  form_value plain_request "code_challenge" <> "" /\ pkce_passed plain_request (form_value silent_request "code_verifier") /\
  can_sign demoJ client1 /\ (forall e, In e (all_events [th]) -> stores "code1" (ev_op e) = false) /\
  statuses (th_past th) = [200%Z].
Proof.
  cbv zeta.
  split; [exact remembering_linked|]. split; [exact remembering_separate|]. split; [exact remembering_answering|].
  split; [exact silent_tidiest|]. split.
  { assert (E : snd (fst silent_run) = Ret tt) by (vm_compute; reflexivity). rewrite <- E.
    exact (mrun_rsteps agreeing 40 silent_store silent_prog). }
  do 3 (split; [vm_compute; reflexivity|]). split. { repeat constructor; exact te0_bundled. }
  split. { exact (rsteps_psteps mstep _ _ _ _ _ (mrun_rsteps agreeing 40 (snd silent_run) (demo_token plain_request)) []). }
  split; [vm_compute; reflexivity|]. split; [exact te0_code|].
  split.
  { assert (Y : firstn 2 (fst (fst redeem_run)) = [Ev (OFindClient "client1") (Some client1, None); Ev ONow 1010%Z]) by (vm_compute; reflexivity).
    cbn [th_past]. eapply signed_demo; [reflexivity|reflexivity|reflexivity|].
    rewrite <- (firstn_skipn 2 (fst (fst redeem_run))), Y. reflexivity. }
  do 3 (split; [reflexivity|]). split; [discriminate|]. split; [right; left; repeat split; discriminate|].
  split; [exact demo_can_sign|]. split; [|vm_compute; reflexivity].
  match goal with |- context [all_events ?l] => assert (X : forallb (fun e => negb (stores "code1" (ev_op e))) (all_events l) = true) by (vm_compute; reflexivity) end.
  intros e He. rewrite forallb_forall in X. apply X in He. destruct (stores "code1" (ev_op e)); [discriminate|reflexivity].
Qed.
