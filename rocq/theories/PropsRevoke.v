(** * Withdrawn authorizations (C81). *)
From Coq Require Import Lia.
From Verif Require Import Core World Spec TokenSpec Grants TokenEndpoint AuthzResponse AuthzEndpoint AuthzSpec ResourceProtector
  ResourceSpec TestStore SysSpec TraceSpec IsolSpec WorkSpec RevokeSpec Hoare Demo SysFacts SysTrace StoreFacts SysDemo ResourceFacts TraceFacts
  IsolFacts WorkFacts RevokeFacts PropsResource PropsSystem PropsTrace PropsIsol PropsWork PropsRefresh.

(** ** C81 Withdrawing an authorization takes effect. *)

(* At some moment an authorization is withdrawn; whatever requests were under way then
   (at any point of their runs) go on, and any number of others follow.  Unless
   CreateOrUpdateAuthInfo returns the authorization again, no request that began
   after the withdrawal asks for a token, a code or a refresh under it, and none that
   presents an access token, a code or a refresh token belonging to it is served. *)
Theorem C81_withdrawn_for_later_requests :
  forall S (W : rworld S) ok gone s1 ths1 more s2 ths2 id n p th,
  revoking_store W ok gone -> ok s1 -> gone s1 id -> Forall goidc more ->
  psteps W (s1, ths1 ++ map start more)%list (s2, ths2) ->
  nth_error more n = Some p -> nth_error ths2 (length ths1 + n) = Some th ->
  revived (ths1 ++ map start more) ths2 id \/
  (~ acted_under id (th_past th) /\ ~ served_under id p (th_past th)).
Proof.
  intros S W ok gone s1 ths1 more s2 ths2 id n p th R HO HGn HG HP Hn Hth.
  destruct (revoked_psteps W ok gone R _ _ id _ HP HO HGn) as [H|(_ & _ & HE)]; [left; exact H|right]. cbn [snd] in HE.
  destruct (psteps_rest W _ _ HP _ _ Hth) as (th1 & t & E1 & E2 & E3). cbn [snd] in E1.
  assert (Es : th1 = start p).
  { rewrite nth_error_app2 in E1 by lia. replace (length ths1 + n - length ths1)%nat with n in E1 by lia.
    rewrite (map_nth_error start _ _ Hn) in E1. injection E1 as <-. reflexivity. }
  subst th1. simpl in E2, E3. subst t.
  assert (HI : forall e, In e (th_past th) -> says id e).
  { intros e He. apply HE. exists (length ths1 + n)%nat, (start p), th, (th_past th). repeat split; assumption. }
  assert (HGp : goidc p) by (eapply Forall_forall; [exact HG|eapply nth_error_In; exact Hn]).
  split.
  - intros HA. destruct (acted_told _ _ _ _ HGp E3 HA) as (i & Hi & HT). exact (told_says _ _ _ HI HT Hi).
  - intros HS. destruct (served_told _ _ _ _ E3 HS) as (i & Hi). destruct (HI _ Hi) as (X & _). destruct (X _ _ eq_refl) as [_ Y]. congruence.
Qed.
Print Assumptions C81_withdrawn_for_later_requests.

(* What can bring it back is a call that goidc makes only when the user agrees
   (again): if a later request was served nevertheless, then after the withdrawal a
   request went on in which the user agreed to let the client have some scope. *)
Theorem C81_only_agreeing_again_revives :
  forall S (W : rworld S) ok gone s0 progs s1 ths1 s1' more s2 ths2 id n p th,
  revoking_store W ok gone -> Forall goidc progs ->
  psteps W (s0, map start progs) (s1, ths1) -> ok s1' -> gone s1' id -> Forall goidc more ->
  psteps W (s1', ths1 ++ map start more)%list (s2, ths2) ->
  nth_error more n = Some p -> nth_error ths2 (length ths1 + n) = Some th ->
  acted_under id (th_past th) \/ served_under id p (th_past th) ->
  exists m p' th' uid cid scope i,
    nth_error (progs ++ more) m = Some p' /\ nth_error ths2 m = Some th' /\
    nth_error (ths1 ++ map start more) m <> Some th' /\ agreed p' (th_past th') uid cid scope /\
    In (Ev (OCreateInfo uid cid scope) (Some i, None)) (th_past th') /\ ai_id i = id.
Proof.
  intros S W ok gone s0 progs s1 ths1 s1' more s2 ths2 id n p th R HG0 HP0 HO HGn HG HP Hn Hth HS.
  destruct (C81_withdrawn_for_later_requests _ _ _ _ _ _ _ _ _ _ _ _ _ R HO HGn HG HP Hn Hth) as [H|[H1 H2]]; [|destruct HS; contradiction].
  destruct H as (uid & cid & scope & i & (m & th1 & th2 & t & E1 & E2 & E3 & E4) & Hi).
  destruct (psteps_rest W _ _ HP _ _ E2) as (th1' & t' & F1 & F2 & F3). cbn [snd] in F1. rewrite E1 in F1. injection F1 as <-.
  rewrite E3 in F2. apply app_inv_head in F2. subst t'.
  assert (HX : exists p', nth_error (progs ++ more) m = Some p' /\ steps p' (th_past th1) (th_rest th1)).
  { destruct (Nat.lt_ge_cases m (length ths1)) as [Hlt|Hge].
    - rewrite nth_error_app1 in E1 by exact Hlt. destruct (psteps_rest W _ _ HP0 _ _ E1) as (th0 & t0 & G1 & G2 & G3). cbn [snd] in G1.
      rewrite nth_error_map in G1. destruct (nth_error progs m) as [p'|] eqn:Ep; [|discriminate]. injection G1 as <-. simpl in G2, G3.
      exists p'. split; [|rewrite G2; exact G3]. rewrite nth_error_app1; [exact Ep|]. apply nth_error_Some. rewrite Ep. discriminate.
    - rewrite nth_error_app2 in E1 by exact Hge.
      assert (EL : length progs = length ths1).
      { destruct (psteps_grow W _ _ HP0) as [X _]. cbn [snd] in X. rewrite map_length in X. auto. }
      rewrite nth_error_map in E1. destruct (nth_error more (m - length ths1)) as [p'|] eqn:Ep; [|discriminate]. injection E1 as <-.
      exists p'. split; [|constructor]. rewrite nth_error_app2 by lia. rewrite EL. exact Ep. }
  destruct HX as (p' & Hp' & HS').
  assert (HGp : goidc p').
  { apply nth_error_In in Hp'. apply in_app_or in Hp'. destruct Hp'; [eapply Forall_forall; [exact HG0|eassumption]|eapply Forall_forall; [exact HG|eassumption]]. }
  exists m, p', th2, uid, cid, scope, i. split; [exact Hp'|]. split; [exact E2|].
  assert (HIn : In (Ev (OCreateInfo uid cid scope) (Some i, None)) (th_past th2)) by (rewrite E3; apply in_or_app; auto).
  split. { rewrite E1. intros X. injection X as ->. rewrite <- (app_nil_r (th_past th2)) in E3 at 1. apply app_inv_head in E3. subst t. destruct E4. }
  split; [|auto]. eapply goidc_create_info; [exact HGp| |exact HIn]. rewrite E3. eapply steps_trans; eauto.
Qed.
Print Assumptions C81_only_agreeing_again_revives.

(** The bundled store has no way of withdrawing an authorization; here an operator
    deletes it. *)
Definition withdraw (id : Z) (s : store) : store := set_infos s (st_next_info s) (adel Z.eqb id (st_infos s)).
Definition deleted (s : store) (id : Z) : Prop := zget id (st_infos s) = None /\ (id < st_next_info s)%Z.

Lemma deleted_step b s o a s' id : tidy s -> sstep b s o a s' -> deleted s id -> deleted s' id.
Proof.
  intros HT H [H1 H2]. destruct H; try (split; assumption).
  - split; [|exact H2]. cbn [set_infos st_infos]. unfold zget; rewrite (aget_aput Z.eqb Z.eqb_eq).
    destruct (Z.eqb id id0) eqn:E; [|exact H1]. apply Z.eqb_eq in E. subst id0. exfalso.
    destruct HT as (_ & _ & T3). rewrite (nodup_get _ _ _ T3 H) in H1. discriminate H1.
  - cbn [set_infos st_infos st_next_info]. split; [|simpl; lia]. unfold zget. cbn [set_infos st_infos]. rewrite (aget_aput Z.eqb Z.eqb_eq).
    destruct (Z.eqb id (st_next_info s)) eqn:E; [|exact H1]. apply Z.eqb_eq in E. lia.
Qed.
Lemma deleted_new b s uid cid scope i s' id : tidy s -> sstep b s (OCreateInfo uid cid scope) (Some i, None) s' -> deleted s id -> ai_id i <> id.
Proof.
  intros HT H HD E. pose proof (deleted_step _ _ _ _ _ _ HT H HD) as [X _].
  pose proof (proj1 (ll_create _ _ _ _ (bundled_linked b) _ _ _ _ _ _ HT H)) as Y. simpl in Y. rewrite E in Y. congruence.
Qed.
Lemma bundled_revoking b : revoking_store (sstep b) tidy deleted.
Proof.
  pose proof (bundled_linked b) as L. constructor.
  - intros s o a s'. apply tidy_step.
  - intros s id i s' HT H. destruct (ll_active _ _ _ _ L _ _ _ _ HT H) as [E1 E2]. split; [exact E2|]. intros [X _]. congruence.
  - intros s uid cid i s' HT H. pose proof (sstep_reading _ _ _ _ _ HT H) as [_ E]. discriminate E.
  - intros s o a s' id HT H HD. left. exact (deleted_step _ _ _ _ _ _ HT H HD).
Qed.
Lemma withdraw_deleted id s : tidy s -> (id < st_next_info s)%Z -> tidy (withdraw id s) /\ deleted (withdraw id s) id.
Proof.
  intros (T1 & T2 & T3) H. split; [split; [exact T1|split]|split; [|exact H]].
  - intros id' i HI. apply (in_adel Z.eqb Z.eqb_eq) in HI. destruct HI as [HI _]. exact (T2 _ _ HI).
  - apply nodup_adel. exact T3.
  - unfold withdraw. cbn [set_infos st_infos]. unfold zget; rewrite (aget_adel Z.eqb Z.eqb_eq), Z.eqb_refl. reflexivity.
Qed.

(* The bundled store does not bring an authorization back: users who agree again get
   another one. *)
Theorem C81_bundled_store : forall b s1 ths1 more s2 ths2 id n p th,
  tidy s1 -> (id < st_next_info s1)%Z -> Forall goidc more ->
  psteps (sstep b) (withdraw id s1, ths1 ++ map start more)%list (s2, ths2) ->
  nth_error more n = Some p -> nth_error ths2 (length ths1 + n) = Some th ->
  ~ acted_under id (th_past th) /\ ~ served_under id p (th_past th).
Proof.
  intros b s1 ths1 more s2 ths2 id n p th HT Hid HG HP Hn Hth. destruct (withdraw_deleted _ _ HT Hid) as [HT' HD].
  destruct (C81_withdrawn_for_later_requests _ _ _ _ _ _ _ _ _ _ _ _ _ (bundled_revoking b) HT' HD HG HP Hn Hth) as [H|H]; [exfalso|exact H].
  revert H. apply (never_revived _ _ _ (bundled_revoking b) _ _ _ _ HP HT' HD).
  - intros s o a s' H1 H2 H3. exact (deleted_step _ _ _ _ _ _ H1 H3 H2).
  - intros s uid cid scope i s' H1 H2 H3. exact (deleted_new _ _ _ _ _ _ _ _ H1 H3 H2).
Qed.
Print Assumptions C81_bundled_store.

(* Requests that were under way may still be served: here client1's code exchange has
   looked the authorization up when the operator withdraws it; the client gets its
   token.  (By the theorems above the token opens nothing.) *)
Definition under_way : store * list (thread unit) := sched false agreeing (repeat 0 4)%nat store5 (map start [demo_token code_request]).
Definition token7_request : request := api_request [("Authorization", "Bearer ACCESS_TOKEN_7")] [] [].
Definition later : list (prog unit) := [done (validate rp0 token7_request); demo_token renew_request].
Definition after_withdrawal : store * list (thread unit) :=
  sched false agreeing (repeat 0 10 ++ repeat 2 10 ++ repeat 1 12)%nat%list (withdraw 7 (fst under_way)) (snd under_way ++ map start later)%list.


Theorem C81_requests_under_way_refuted :
  exists s1 ths1 s2 ths2 id th p code x,
    psteps (sstep false) (store5, map start [p]) (s1, ths1) /\ Forall goidc [p] /\ tidy s1 /\ (id < st_next_info s1)%Z /\
    psteps (sstep false) (withdraw id s1, ths1) (s2, ths2) /\ nth_error ths2 0 = Some th /\
    statuses (flat_map th_past ths1) = [] /\ redeemed p (th_past th) code /\
    In (Ev (OFindSession code) (Some x, None)) (th_past th) /\ as_auth_id x = id.
Proof.
  set (c1 := under_way).
  set (c2 := sched false agreeing (repeat 0 10)%nat (withdraw 7 (fst c1)) (snd c1)).
  destruct (nth_error (snd c2) 0) as [th|] eqn:Eth; [|exfalso; revert Eth; vm_compute; discriminate].
  exists (fst c1), (snd c1), (fst c2), (snd c2), 7%Z, th, (demo_token code_request), "code1", (session1 "").
  assert (H1 : psteps (sstep false) (store5, map start [demo_token code_request]) (fst c1, snd c1)).
  { rewrite <- (surjective_pairing c1). exact (sched_run false agreeing _ _ _). }
  split; [exact H1|]. split. { repeat constructor. exact te0_bundled. }
  split. { eapply (rv_ok_psteps (sstep false) tidy); [exact (tidy_step false)|exact H1|exact (proj1 (proj1 (proj1 store5_renewable)))]. }
  split; [vm_compute; reflexivity|].
  split. { rewrite <- (surjective_pairing c2). exact (sched_run false agreeing _ _ _). }
  split; [exact Eth|]. split; [vm_compute; reflexivity|].
  assert (X : option_map (fun th => (statuses (th_past th), nth_error (th_past th) 2)) (nth_error (snd c2) 0) =
     Some ([200%Z], Some (Ev (OFindSession "code1") (Some (session1 ""), None)))) by (vm_compute; reflexivity).
  rewrite Eth in X. cbn [option_map] in X. assert (X1 : statuses (th_past th) = [200%Z]) by congruence.
  assert (X2 : nth_error (th_past th) 2 = Some (Ev (OFindSession "code1") (Some (session1 ""), None))) by congruence.
  split.
  { split; [|rewrite X1; simpl; auto]. exists demoJ, te0, code_request. split; [reflexivity|]. split; [exact te0_bundled|]. split; [exact te0_code|reflexivity]. }
  split; [eapply nth_error_In; exact X2|reflexivity].
Qed.
Print Assumptions C81_requests_under_way_refuted.

(** The exchange of above goes on; afterwards the client tries the access token and the
    refresh token that it got. *)
Example C81_example :
  tidy (fst under_way) /\ (7 < st_next_info (fst under_way))%Z /\ Forall goidc later /\
  psteps (sstep false) (withdraw 7 (fst under_way), snd under_way ++ map start later)%list after_withdrawal /\
  map (fun th => statuses (th_past th)) (snd after_withdrawal) = [[200%Z]; [401%Z]; [400%Z]] /\
  option_map ot_auth_id (sget "ACCESS_TOKEN_7" (st_tokens (fst after_withdrawal))) = Some 7%Z /\
  option_map ot_refresh (sget "ACCESS_TOKEN_7" (st_tokens (fst after_withdrawal))) = Some "REFRESH_TOKEN_7" /\
  zget 7 (st_infos store5) = Some offline_info.
Proof.
  split.
  { eapply (rv_ok_psteps (sstep false) tidy); [exact (tidy_step false)| |exact (proj1 (proj1 (proj1 store5_renewable)))].
    assert (H1 : psteps (sstep false) (store5, map start [demo_token code_request]) under_way) by exact (sched_run false agreeing _ _ _).
    rewrite (surjective_pairing under_way) in H1. exact H1. }
  split; [vm_compute; reflexivity|]. split. { repeat constructor. exact te0_bundled. }
  split; [exact (sched_run false agreeing _ _ _)|]. repeat split; vm_compute; reflexivity.
Qed.

(** A data layer with one authorization, which CreateOrUpdateAuthInfo brings back; the
    state tells whether it is withdrawn. *)
Definition reviving : rworld bool := fun s o a s' =>
  match o as o0 return ans o0 -> Prop with
  | OFindActiveInfo id => fun a => s' = s /\ a = (if (negb s && Z.eqb id 7)%bool then (Some offline_info, None) else (None, Some ErrFailed))
  | OFindInfo _ _ => fun a => s' = s /\ a = (None, Some ErrUnsupported)
  | OCreateInfo _ _ _ => fun a => s' = false /\ a = (Some offline_info, None)
  | _ => fun _ => s' = s
  end a.
Lemma reviving_store : revoking_store reviving (fun _ => True) (fun s id => s = true /\ id = 7%Z).
Proof.
  constructor.
  - auto.
  - intros s id i s' _ [_ H]. destruct s; [discriminate H|]. cbn [negb andb] in H. destruct (Z.eqb_spec id 7) as [->|]; [|discriminate H].
    injection H as ->. split; [reflexivity|]. intros [X _]. discriminate X.
  - intros s uid cid i s' _ [_ H]. discriminate H.
  - intros s o a s' id _ H [-> ->]. destruct o; simpl in H;
      try (left; split; [first [exact H|exact (proj1 H)]|reflexivity]).
    destruct H as [-> ->]. right. exists uid, cid, scope, offline_info. split; reflexivity.
Qed.

Lemma alone {S} (W : rworld S) s (p : prog unit) tr q s' : rsteps W s p tr q s' -> forall past,
  psteps W (s, [Thread past p]) (s', [Thread (past ++ tr) q]).
Proof.
  induction 1 as [s p|s o k x s1 tr p' s2 HW H IH]; intros past; [rewrite app_nil_r; constructor|].
  eapply psteps_trans; [|rewrite (app_assoc past [Ev o x] tr : (past ++ Ev o x :: tr)%list = _); apply IH].
  eapply psteps_next; [constructor|]. exact (pstep_one W s s1 [] past o k x [] HW).
Qed.

Definition revival : world bool := fun s o =>
  (match o with OCreateInfo _ _ _ => false | _ => s end,
   match o as o0 return ans o0 with
   | OFindActiveInfo id => if (negb s && Z.eqb id 7)%bool then (Some offline_info, None) else (None, Some ErrFailed)
   | OFindInfo _ _ => (None, Some ErrUnsupported)
   | OCreateInfo _ _ _ => (Some offline_info, None)
   | o => snd (answering agreeing tt o) end).
Lemma run_revival (p : prog unit) : forall s s' tr, run revival s p = (s', tr, Done tt) -> rsteps reviving s p tr (Ret tt) s'.
Proof.
  induction p as [a| |o k IH]; intros s s' tr H.
  - simpl in H. injection H as <- <-. destruct a. constructor.
  - discriminate H.
  - simpl in H. destruct (run revival _ (k _)) as [[s2 t2] r2] eqn:E. injection H as <- <- ->. eapply rsteps_vis; [|eapply IH; exact E].
    destruct o; simpl; auto.
Qed.

(** The user agrees after the withdrawal: a code is stored under the authorization. *)
Definition revival_run := run revival true demo_complete.
Example C81_revived_example : exists s2 ths2 th,
  goidc demo_complete /\
  psteps reviving (true, [] ++ map start [demo_complete])%list (s2, ths2) /\
  nth_error [demo_complete] 0 = Some demo_complete /\ nth_error ths2 (@length (thread unit) [] + 0) = Some th /\
  acted_under 7 (th_past th).
Proof.
  assert (HR : rsteps reviving true demo_complete (snd (fst revival_run)) (Ret tt) (fst (fst revival_run))).
  { apply run_revival. fold revival_run. assert (E : snd revival_run = Done tt) by (vm_compute; reflexivity). rewrite <- E.
    destruct revival_run as [[s t] r]. reflexivity. }
  exists (fst (fst revival_run)), [Thread (snd (fst revival_run)) (Ret tt)], (Thread (snd (fst revival_run)) (Ret tt)).
  split; [apply g_complete|]. split; [exact (alone _ _ _ _ _ _ HR [])|]. split; [reflexivity|]. split; [reflexivity|].
  change (acted_under 7 (snd (fst revival_run))).
  eapply au_code.
  eapply (nth_error_In _ 5).
  vm_compute.
  reflexivity.
  reflexivity.
Qed.
