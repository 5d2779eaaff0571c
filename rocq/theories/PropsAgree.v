(** * ID tokens of both endpoints agree (C79). *)
From Coq Require Import Lia.
From Verif Require Import Core World Spec TokenSpec Sha Utils OAuthError Grants TokenEndpoint AuthzResponse AuthzEndpoint AuthzSpec ResourceProtector
  TestStore SysSpec AgreeSpec Hoare Demo SysFacts SysTrace StoreFacts SysDemo TraceFacts AgreeFacts PropsSystem.

(** ** C79 The ID token sent with a code and the one it is exchanged for agree. *)

(* Over any data layer that keeps its promises, in any interleaving of any number
   of calls of goidc's entry points: when a token request with a code (not known at
   the start) is answered with success, some other call stored the code.  If the
   scope has openid, the client gets an ID token with the nonce and the time of
   authentication of that call.  If that call completed by sending the client an
   answer, the answer has the code, and an ID token in it agrees: issuer, user,
   audience, nonce and time of authentication are the same, and its c_hash is the
   hash of the code. *)
Theorem C79_id_tokens_agree : forall S (W : rworld S) ok sess auth s0 progs s ths n J te r th,
  linked_store W ok sess auth -> steady_store W ok sess auth -> ok s0 ->
  sess s0 (form_value r "code") = None -> Forall goidc progs ->
  psteps W (s0, map start progs) (s, ths) ->
  only_bundled J te -> registered te (form_value r "grant_type") (authorization_code J) ->
  nth_error progs n = Some (token_handler J te r) -> nth_error ths n = Some th -> th_rest th = Ret tt ->
  In 200%Z (statuses (th_past th)) ->
  exists c now tg rs x info i y m p th',
    served J te r (th_past th) c now tg rs /\
    nth_error progs m = Some p /\ nth_error ths m = Some th' /\
    In (Ev (OCreateSession (Some i) y) None) (th_past th') /\ s_code y = form_value r "code" /\
    (has_word (ai_scope info) "openid" -> exists iss cs,
       id_claims cs iss (c_id c) (ai_subject info) (s_nonce y) (add64 now (as_idt_expires x)) (s_auth_time y) now None None /\
       signed_for J c cs (rs_id rs) /\
       forall E, sent_success p (th_past th') E -> exists mode uri params,
         answered mode uri params (th_past th') /\ In ("code", form_value r "code") params /\
         In (Ev OAuthTime (Some (s_auth_time y))) (th_past th') /\
         forall idt, In ("id_token", idt) params ->
           agrees E c (form_value r "code") iss (ai_subject info) (s_nonce y) (s_auth_time y) (th_past th') idt).
Proof.
  intros S W ok sess auth s0 progs s ths n J te r th L T HO HN HG HP HB HR Hn Hth He H200.
  exact (ids_agree W ok sess auth L T s0 progs s ths n J te r th HP HO HN HG HB HR Hn Hth He H200).
Qed.
Print Assumptions C79_id_tokens_agree.

(** The bundled store: subjects are the user ids. *)
Definition truthful (s : store) : Prop :=
  tidier s /\ forall id i, In (id, i) (st_infos s) -> ai_subject i = itoa (ai_user i).

Lemma truthful_step b s o a s' : truthful s -> sstep b s o a s' -> truthful s'.
Proof.
  intros [H1 H2] H. split; [eapply tidier_step; eauto|]. destruct H; try exact H2; cbn [set_infos st_infos].
  - intros k j HI. destruct HI as [HI|HI].
    + injection HI as <- <-. unfold same_user_client in H0. apply andb_true_iff in H0. destruct H0 as [H0 _].
      apply Z.eqb_eq in H0. cbn in *. rewrite H0. reflexivity.
    + apply (in_adel Z.eqb Z.eqb_eq) in HI. destruct HI. eauto.
  - intros k j HI. destruct HI as [HI|HI].
    + injection HI as <- <-. reflexivity.
    + apply (in_adel Z.eqb Z.eqb_eq) in HI. destruct HI. eauto.
Qed.
Lemma bundled_linked4 b :
  linked_store (sstep b) truthful (fun s code => sget code (st_sessions s)) (fun s id => zget id (st_infos s)).
Proof.
  destruct (bundled_linked2 b) as [L0 L1 L2 L3 L4 L5 L6]. constructor.
  - intros s o a s'. apply truthful_step.
  - intros s code x s' [HT _]. apply L1. exact HT.
  - intros s o a s' code x [HT _]. apply L2. exact HT.
  - intros s id i s' [HT _]. apply L3. exact HT.
  - intros s uid cid i s' [HT _]. apply L4. exact HT.
  - intros s uid cid scope i s' [HT _]. apply L5. exact HT.
  - intros s o a s' id i [HT _]. apply L6. exact HT.
Qed.
Lemma issuer_step b s o a s' : sstep b s o a s' ->
  match o as o0 return ans o0 -> Prop with OIssuer => fun a => a = "http://example.org/" | _ => fun _ => True end a.
Proof. intros H. destruct H; exact I || reflexivity. Qed.
Lemma bundled_steady b :
  steady_store (sstep b) truthful (fun s code => sget code (st_sessions s)) (fun s id => zget id (st_infos s)).
Proof.
  constructor.
  - intros s o a s' code x [[HT _] _] H HX. rewrite (session_step _ _ _ _ _ _ HT H) in HX.
    pose proof (sstep_reading _ _ _ _ _ HT H) as HR.
    destruct o; try (left; exact HX).
    + simpl in HR. destruct HR as (j & -> & -> & _). destruct (seqb code (s_code s0)) eqn:E; [|left; exact HX].
      right. exists j, s0. injection HX as <-. apply seqb_eq in E. auto.
    + left. destruct (seqb code (as_code s0)); [discriminate|exact HX].
  - intros s o a s' id i i' HT H H1 H2. pose proof (truthful_step _ _ _ _ _ HT H) as [_ HT2].
    destruct (ll_auth _ _ _ _ (bundled_linked4 b) _ _ _ _ _ _ HT H H1) as (i2 & H3 & [_ H4]).
    rewrite H2 in H3. injection H3 as <-. destruct HT as [_ HT].
    rewrite (HT _ _ (aget_in Z.eqb Z.eqb_eq _ _ _ H1)), (HT2 _ _ (aget_in Z.eqb Z.eqb_eq _ _ _ H2)). congruence.
  - intros s1 iss1 s1' s2 iss2 s2' _ _ H1 H2. rewrite (issuer_step _ _ _ _ _ H1), (issuer_step _ _ _ _ _ H2). reflexivity.
Qed.

Theorem C79_bundled_store : forall b s0 progs s ths n J te r th,
  truthful s0 -> sget (form_value r "code") (st_sessions s0) = None -> Forall goidc progs ->
  psteps (sstep b) (s0, map start progs) (s, ths) ->
  only_bundled J te -> registered te (form_value r "grant_type") (authorization_code J) ->
  nth_error progs n = Some (token_handler J te r) -> nth_error ths n = Some th -> th_rest th = Ret tt ->
  In 200%Z (statuses (th_past th)) ->
  exists c now tg rs x info i y m p th',
    served J te r (th_past th) c now tg rs /\
    nth_error progs m = Some p /\ nth_error ths m = Some th' /\
    In (Ev (OCreateSession (Some i) y) None) (th_past th') /\ s_code y = form_value r "code" /\
    (has_word (ai_scope info) "openid" -> exists iss cs,
       id_claims cs iss (c_id c) (ai_subject info) (s_nonce y) (add64 now (as_idt_expires x)) (s_auth_time y) now None None /\
       signed_for J c cs (rs_id rs) /\
       forall E, sent_success p (th_past th') E -> exists mode uri params,
         answered mode uri params (th_past th') /\ In ("code", form_value r "code") params /\
         In (Ev OAuthTime (Some (s_auth_time y))) (th_past th') /\
         forall idt, In ("id_token", idt) params ->
           agrees E c (form_value r "code") iss (ai_subject info) (s_nonce y) (s_auth_time y) (th_past th') idt).
Proof.
  intros b s0 progs s ths n J te r th HO HN HG HP HB HR Hn Hth He H200.
  exact (C79_id_tokens_agree _ _ _ _ _ _ _ _ _ _ _ _ _ _ (bundled_linked4 b) (bundled_steady b) HO HN HG HP HB HR Hn Hth He H200).
Qed.
Print Assumptions C79_bundled_store.

(* The user agrees to a hybrid request, then the client redeems the code. *)
Definition hybrid_request : arequest :=
  ARequest (Some (Flow FHybrid true true)) "client1" "openid email" "https://rp.example/cb" "fragment" "s1"
    "a-code-verifier" "n1" "page" "" 0 "ja" "" "".
Definition agreeing_hybrid : answers :=
  let w := agreeing in
  Answers (w_client w) (w_session w) (w_active w) (w_info w) (w_access w) (w_refresh w) (w_token w)
    (w_user w) (w_disable w) (w_record w) (w_now w) (w_login w) (w_from_login w) (w_auth_time w)
    (w_login_user w) (w_code w) (w_subject w) (Some (Some hybrid_request)).
Example C79_example :
  let progs := [demo_complete; demo_token plain_request] in
  let '(s, ths) := sched false agreeing_hybrid (repeat 0 11 ++ repeat 1 14)%nat%list store0 (map start progs) in
  truthful store0 /\ Forall goidc progs /\ psteps (sstep false) (store0, map start progs) (s, ths) /\
  map (fun th => statuses (th_past th)) ths = [[]; [200%Z]] /\
  (forall th, nth_error ths 1 = Some th -> th_rest th = Ret tt) /\
  (forall th, nth_error ths 0 = Some th -> sent_success demo_complete (th_past th) (Env demoJ (fun _ => true)) /\
     http_ops (th_past th) =
       [ORedirect "https://rp.example/cb#access_token=ACCESS_TOKEN_0&code=code1&expires_in=86400&id_token=signed.id.token&scope=openid+email&state=s1&token_type=bearer"]).
Proof.
  cbv zeta.
  destruct (sched false agreeing_hybrid (repeat 0 11 ++ repeat 1 14)%nat%list store0 (map start [demo_complete; demo_token plain_request])) as [s ths] eqn:E.
  split; [|split; [|split; [exact (sched_psteps _ _ _ _ _ _ _ E)|]]].
  - split; [|intros id i []]. split; [|constructor].
    split; [|split]; [intros code x H; discriminate|intros id i []|constructor].
  - constructor; [apply g_complete|]. constructor; [apply g_token; exact te0_bundled|constructor].
  - vm_compute in E. injection E as <- <-. split; [vm_compute; reflexivity|]. split; [intros th H; injection H as <-; reflexivity|].
    intros th H. injection H as <-. split; [|vm_compute; reflexivity]. split; [discriminate|]. left. exists default_policy.
    split; [reflexivity|]. repeat constructor.
Qed.
