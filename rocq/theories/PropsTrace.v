(** * Where served requests come from (C71, C72, C73). *)
From Coq Require Import Lia.
From Verif Require Import Core World Spec TokenSpec Grants TokenEndpoint AuthzResponse AuthzEndpoint AuthzSpec ResourceProtector
  ResourceSpec TestStore SysSpec TraceSpec Hoare Demo SysFacts SysTrace StoreFacts SysDemo ResourceFacts TraceFacts PropsResource PropsSystem.

(** ** C71 Served requests trace back to the user. *)

(* Over any data layer that keeps its promises, in any interleaving of any number
   of calls of goidc's entry points: a protected request that is let through is
   served under an authorization for which, unless somebody held a code or a token
   at the start, the user named in the headers let the client named there act. *)
Theorem C71_served_requests_were_granted :
  forall S (W : rworld S) ok sess auth tok s0 progs s ths n p th r r',
  linked_store W ok sess auth -> token_store W ok tok -> ok s0 -> Forall goidc progs ->
  psteps W (s0, map start progs) (s, ths) ->
  nth_error progs n = Some p -> nth_error ths n = Some th -> let_through p (th_past th) r r' ->
  exists info, identified r r' info /\
    ((forall code x, sess s0 code = Some x -> as_auth_id x <> ai_id info) ->
     (forall t k, tok s0 t = Some k -> ot_auth_id k <> ai_id info) ->
     exists m p' th', nth_error progs m = Some p' /\ nth_error ths m = Some th' /\
       granted p' (th_past th') (ai_user info) (ai_client info)).
Proof.
  intros S W ok sess auth tok s0 progs s ths n p th r r' L T HO HG HP Hn Hth HT.
  destruct (through_live _ _ _ _ HT) as (t & k & now & info & _ & HC & HI & _). exists info. split; [exact HI|].
  assert (HA : forall e, In e (live_calls t k now info) -> In e (all_events ths)).
  { intros e He. unfold all_events. apply in_flat_map. exists th. split; [eapply nth_error_In; eauto|]. rewrite HC. exact He. }
  assert (Hid : ai_id info = ot_auth_id k).
  { destruct (told_psteps W ok sess auth L _ _ HP _ _ eq_refl HO) as (_ & _ & _ & _ & _ & F6). cbn [fst snd] in F6.
    eapply F6. apply HA. simpl. auto. }
  rewrite Hid. intros H1 H2.
  eapply (found_granted W ok sess auth tok L T); eauto; apply HA; simpl; auto.
Qed.
Print Assumptions C71_served_requests_were_granted.

(* Over the bundled store. *)
Theorem C71_bundled_store : forall b s0 progs s ths n p th r r',
  tidier s0 -> st_sessions s0 = [] -> st_tokens s0 = [] -> Forall goidc progs ->
  psteps (sstep b) (s0, map start progs) (s, ths) ->
  nth_error progs n = Some p -> nth_error ths n = Some th -> let_through p (th_past th) r r' ->
  exists info m p' th', identified r r' info /\ nth_error progs m = Some p' /\ nth_error ths m = Some th' /\
    granted p' (th_past th') (ai_user info) (ai_client info).
Proof.
  intros b s0 progs s ths n p th r r' HT H1 H2 HG HP Hn Hth HL.
  destruct (C71_served_requests_were_granted _ _ _ _ _ _ _ _ _ _ _ _ _ _ _ (bundled_linked2 b) (bundled_tokens b) HT HG HP Hn Hth HL)
    as (info & HI & H).
  destruct H as (m & p' & th' & H).
  - intros code x HX. rewrite H1 in HX. discriminate.
  - intros t k HX. rewrite H2 in HX. discriminate.
  - exists info, m, p', th'. tauto.
Qed.
Print Assumptions C71_bundled_store.

(** ** C72 Served scopes were agreed to. *)

(* If the authorization did not exist at the start, the scope that the protected
   request is served with is exactly one that the user let the client have. *)
Theorem C72_served_scopes_were_agreed :
  forall S (W : rworld S) ok sess auth s0 progs s ths n p th r r',
  linked_store W ok sess auth -> scope_store W ok auth -> ok s0 -> Forall goidc progs ->
  psteps W (s0, map start progs) (s, ths) ->
  nth_error progs n = Some p -> nth_error ths n = Some th -> let_through p (th_past th) r r' ->
  exists info, identified r r' info /\
    (auth s0 (ai_id info) = None ->
     exists m p' th', nth_error progs m = Some p' /\ nth_error ths m = Some th' /\
       agreed p' (th_past th') (ai_user info) (ai_client info) (ai_scope info)).
Proof.
  intros S W ok sess auth s0 progs s ths n p th r r' L C HO HG HP Hn Hth HT.
  destruct (through_live _ _ _ _ HT) as (t & k & now & info & _ & HC & HI & _). exists info. split; [exact HI|].
  assert (HA : forall e, In e (live_calls t k now info) -> In e (all_events ths)).
  { intros e He. unfold all_events. apply in_flat_map. exists th. split; [eapply nth_error_In; eauto|]. rewrite HC. exact He. }
  assert (Hid : ai_id info = ot_auth_id k).
  { destruct (told_psteps W ok sess auth L _ _ HP _ _ eq_refl HO) as (_ & _ & _ & _ & _ & F6). cbn [fst snd] in F6.
    eapply F6. apply HA. simpl. auto. }
  rewrite Hid. intros HN. eapply (found_agreed W ok sess auth L C); eauto. apply HA. simpl. auto.
Qed.
Print Assumptions C72_served_scopes_were_agreed.

Theorem C72_bundled_store : forall b s0 progs s ths n p th r r',
  tidier s0 -> st_infos s0 = [] -> Forall goidc progs ->
  psteps (sstep b) (s0, map start progs) (s, ths) ->
  nth_error progs n = Some p -> nth_error ths n = Some th -> let_through p (th_past th) r r' ->
  exists info m p' th', identified r r' info /\ nth_error progs m = Some p' /\ nth_error ths m = Some th' /\
    agreed p' (th_past th') (ai_user info) (ai_client info) (ai_scope info).
Proof.
  intros b s0 progs s ths n p th r r' HT H1 HG HP Hn Hth HL.
  destruct (C72_served_scopes_were_agreed _ _ _ _ _ _ _ _ _ _ _ _ _ _ (bundled_linked2 b) (bundled_scopes b) HT HG HP Hn Hth HL)
    as (info & HI & H).
  destruct H as (m & p' & th' & H).
  - rewrite H1. reflexivity.
  - exists info, m, p', th'. tauto.
Qed.
Print Assumptions C72_bundled_store.

(** User 42 agrees, client1 redeems the code and uses the token. *)
Definition used_request : request := api_request [("Authorization", "Bearer ACCESS_TOKEN_0")] [] [].
Definition protected : prog unit := done (validate rp0 used_request).
Definition whole_story : list (prog unit) := [demo_complete; demo_token plain_request; protected].

Lemma store0_tidier : tidier store0.
Proof.
  split; [|constructor]. split; [|split]; [intros code x H; discriminate|intros id i []|constructor].
Qed.
Lemma story_goidc : Forall goidc whole_story.
Proof.
  constructor; [apply g_complete|]. constructor; [apply g_token; exact te0_bundled|]. constructor; [apply g_resource|constructor].
Qed.

Definition story_order : list nat := (repeat 0 7 ++ repeat 1 14 ++ repeat 2 3)%nat%list.
Definition story : store * list (thread unit) := sched false agreeing story_order store0 (map start whole_story).

Lemma sched_run b w l s ths : psteps (sstep b) (s, ths) (sched b w l s ths).
Proof. destruct (sched b w l s ths) as [s' ths'] eqn:E. exact (sched_psteps _ _ _ _ _ _ _ E). Qed.
Lemma used_token : find_token rp0 used_request = "ACCESS_TOKEN_0".
Proof. reflexivity. Qed.
Definition info_of (scope : string) : authinfo := AuthInfo 0 "client1" 42 "42" scope 0 true.
Definition token0 : oauthtoken := created_token (info_of "openid email") 1010 1010.
Lemma used_through scope :
  let_through protected (live_calls "ACCESS_TOKEN_0" token0 1010 (info_of scope)) used_request (identify used_request (info_of scope)).
Proof.
  eapply lt_plain; [reflexivity|]. apply validate_complete.
  - rewrite <- used_token. apply token_from_some. discriminate.
  - unfold access_live. vm_compute. discriminate.
Qed.

Example C71_example :
  psteps (sstep false) (store0, map start whole_story) story /\
  exists th r', nth_error (snd story) 2 = Some th /\ let_through protected (th_past th) used_request r' /\
    header_get r' "X-OAUTH-USER-ID" = "42" /\ header_get r' "X-OAUTH-CLIENT-ID" = "client1" /\
    header_get r' "X-OAUTH-SCOPE" = "openid email".
Proof.
  split; [exact (sched_run false agreeing story_order store0 (map start whole_story))|].
  exists (Thread (live_calls "ACCESS_TOKEN_0" token0 1010 (info_of "openid email")) (Ret tt)), (identify used_request (info_of "openid email")).
  split; [vm_compute; reflexivity|]. split; [apply used_through|]. repeat split.
Qed.

(** ** C73 A token keeps the scope it was issued with. *)

(* As long as the user and the client have agreed on one scope only, requests are
   served with that scope. *)
Theorem C73_one_agreement_one_scope :
  forall S (W : rworld S) ok sess auth s0 progs s ths n p th r r' scope,
  linked_store W ok sess auth -> scope_store W ok auth -> ok s0 -> Forall goidc progs ->
  psteps W (s0, map start progs) (s, ths) ->
  nth_error progs n = Some p -> nth_error ths n = Some th -> let_through p (th_past th) r r' ->
  (forall id, auth s0 id = None) ->
  (forall m p' th' uid cid scope', nth_error progs m = Some p' -> nth_error ths m = Some th' ->
     agreed p' (th_past th') uid cid scope' -> only_header r' "X-Oauth-Client-Id" cid -> only_header r' "X-Oauth-User-Id" (itoa uid) ->
     scope' = scope) ->
  only_header r' "X-Oauth-Scope" scope.
Proof.
  intros S W ok sess auth s0 progs s ths n p th r r' scope L C HO HG HP Hn Hth HT HN HA.
  destruct (C72_served_scopes_were_agreed _ _ _ _ _ _ _ _ _ _ _ _ _ _ L C HO HG HP Hn Hth HT) as (info & HI & H).
  destruct (H (HN _)) as (m & p' & th' & M1 & M2 & M3).
  destruct HI as (_ & _ & _ & _ & _ & I1 & I2 & I3 & _).
  rewrite <- (HA _ _ _ _ _ _ M1 M2 M3 I2 I1). exact I3.
Qed.
Print Assumptions C73_one_agreement_one_scope.

(* Otherwise not: a token that was issued once serves with whatever the user and
   the client agreed to later, by any other way.  Here the user first agrees to
   "openid email"; the client gets a token.  Then the user completes another request
   of the client, for "admin", and no further token is issued: the first token now
   opens what needs "admin". *)
Definition admin_request : arequest :=
  ARequest (Some (Flow FAuthorizationCode false false)) "client1" "admin" "https://rp.example/cb" "query" "s1"
    "a-code-verifier" "n1" "page" "" 0 "ja" "" "".
Definition agreeing_admin : answers :=
  let w := answers1 "" in
  Answers (w_client w) (w_session w) (w_active w) (w_info w) (w_access w) (w_refresh w) (w_token w)
    (w_user w) (w_disable w) (w_record w) (w_now w) (w_login w) (w_from_login w) (w_auth_time w)
    (w_login_user w) (w_code w) (w_subject w) (Some (Some admin_request)).
Definition long_story : list (prog unit) := (whole_story ++ [demo_complete; protected])%list.

Definition creates_token (e : event) : bool :=
  match ev_op e with OCreateToken _ _ => true | ORefresh _ _ => true | _ => false end.

Theorem C73_scope_of_a_token_refuted :
  exists progs s0 s ths p i j th1 th2 r r1 r2,
    tidier s0 /\ st_sessions s0 = [] /\ st_tokens s0 = [] /\ Forall goidc progs /\
    psteps (sstep false) (s0, map start progs) (s, ths) /\
    nth_error progs i = Some p /\ nth_error ths i = Some th1 /\ let_through p (th_past th1) r r1 /\
    nth_error progs j = Some p /\ nth_error ths j = Some th2 /\ let_through p (th_past th2) r r2 /\
    only_header r1 "X-Oauth-Scope" "openid email" /\ only_header r2 "X-Oauth-Scope" "admin" /\
    length (filter creates_token (all_events ths)) = 1%nat.
Proof.
  set (c1 := sched false agreeing story_order store0 (map start long_story)).
  set (c2 := sched false agreeing_admin (repeat 3 7 ++ repeat 4 3)%nat%list (fst c1) (snd c1)).
  exists long_story, store0, (fst c2), (snd c2), protected, 2%nat, 4%nat.
  exists (Thread (live_calls "ACCESS_TOKEN_0" token0 1010 (info_of "openid email")) (Ret tt)).
  exists (Thread (live_calls "ACCESS_TOKEN_0" token0 1010 (info_of "admin")) (Ret tt)).
  exists used_request, (identify used_request (info_of "openid email")), (identify used_request (info_of "admin")).
  split; [exact store0_tidier|]. split; [reflexivity|]. split; [reflexivity|].
  split. { unfold long_story. apply Forall_app. split; [exact story_goidc|]. constructor; [apply g_complete|]. constructor; [apply g_resource|constructor]. }
  split.
  { assert (H2 : psteps (sstep false) (fst c1, snd c1) (fst c2, snd c2)).
    { rewrite <- (surjective_pairing c2). apply sched_run. }
    rewrite <- (surjective_pairing c1) in H2. eapply psteps_trans; [|exact H2]. apply sched_run. }
  split; [reflexivity|]. split; [vm_compute; reflexivity|]. split; [apply used_through|].
  split; [reflexivity|]. split; [vm_compute; reflexivity|]. split; [apply used_through|].
  split; [reflexivity|]. split; [reflexivity|]. vm_compute. reflexivity.
Qed.
Print Assumptions C73_scope_of_a_token_refuted.
