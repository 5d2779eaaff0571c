(** * The code flow from end to end (C88). *)
From Coq Require Import Lia Permutation.
From Verif Require GoStr CodecFacts JsonRead PropsHttp.
From Verif Require Import Core World Spec TokenSpec Grants TokenEndpoint AuthzResponse AuthzEndpoint AuthzSpec AuthzProofs AuthzFacts ResourceProtector
  ResourceSpec TestStore SysSpec TraceSpec IsolSpec WorkSpec CodecSpec Http HttpSpec HttpFacts EndSpec EndFacts Hoare Demo SysFacts SysTrace StoreFacts SysDemo
  ResourceFacts TraceFacts IsolFacts LeakFacts WorkFacts RedeemFacts ViewFacts AmidFacts PropsResource PropsTrace PropsIsol PropsWork PropsSilent PropsAmid.

(** Further calls, in any interleaving. *)
Definition then_calls {S} (W : rworld S) s1 (ths1 : list (thread unit)) more s2 ths2 : Prop :=
  Forall goidc more /\ psteps W (s1, ths1 ++ map start more)%list (s2, ths2).

(** The redirect URI has no query and no fragment, and no double quote. *)
Definition plain_uri (u : string) : Prop := no_byte "#" u /\ no_byte "?" u /\ no_byte GoStr.dquote u.

Definition cont_ans (e : event) : option arequest :=
  match e with Ev o a => (match o as o0 return ans o0 -> option arequest with
    OContinue => fun a => match a with Some (Some q) => Some q | _ => None end | _ => fun _ => None end) a end.

(* The user approves a request; the client takes the code out of the answer, presents it at
   the token endpoint, takes the access token out of that answer and uses it.  Over
   any data layer that keeps its promises, whatever others do at the same time, and
   however much happens in between: the code is exchanged, and the token opens the
   resource as the authorization the user gave. *)
Theorem C88_code_flow :
  forall S (W : rworld S) ok sess auth tok genuine,
  linked_store W ok sess auth -> separate_store W ok sess auth tok genuine -> answering_store W ok sess auth tok ->
  (* the user approves, amid other calls *)
  forall s0 progs s1 ths1 more1 s2 ths2 m1 E pol th1,
  history W ok s0 progs s1 ths1 more1 s2 ths2 ->
  ended ths1 more1 ths2 m1 (done (complete_request E pol)) th1 -> exec (complete_request E pol) (th_past th1) (Done true) ->
  exists req i, recorded req (Some i) (th_past th1) /\ ai_client i = rq_client req /\
  forall l code,
  alone (rq_client req) progs ths1 more1 ths2 m1 -> new_code sess s1 ths1 more1 ths2 m1 code ->
  plain_uri (rq_redirect req) -> client_sees (rq_mode req) (rq_redirect req) (th_past th1) l -> first_value "code" l code ->
  (* the client presents the code, amid other calls *)
  forall more2 s3 ths3 m2 J te w body query gt c th2,
  then_calls W s2 ths2 more2 s3 ths3 -> ended ths2 more2 ths3 m2 (token_handler J te (arrives w)) th2 ->
  alone (rq_client req) (progs ++ more1) ths2 more2 ths3 m2 ->
  (forall e, since (ths2 ++ map start more2) ths3 e -> stores code (ev_op e) = false) ->
  only_bundled J te -> registered te gt (authorization_code J) ->
  HttpSpec.sent w body query -> first_value "grant_type" (body ++ query)%list gt -> first_value "code" (body ++ query)%list code -> code <> "" ->
  first_value "redirect_uri" (body ++ query)%list (rq_redirect req) -> rq_redirect req <> "" ->
  (rq_verifier req <> "" -> pkce_passed (arrives w) (rq_verifier req) /\
     exists v, first_value "code_challenge" (body ++ query)%list v /\ v <> "") ->
  signed_in J te (arrives w) c (th_past th2) -> c_id c = rq_client req -> (has_word (ai_scope i) "openid" -> can_sign J c) ->
  exists rs k, http_ops (th_past th2) = success_answer rs /\ rs_scope rs = ai_scope i /\
    tok s3 (rs_access rs) = Some k /\ rs_expires rs = ot_access_expires k /\ rs_refresh rs = ot_refresh k /\
  (* the client uses the token, amid other calls *)
  forall more3 s4 ths4 m3 rp r th3 t,
  then_calls W s3 ths3 more3 s4 ths4 -> ended ths3 more3 ths4 m3 (done (validate rp r)) th3 ->
  alone (rq_client req) ((progs ++ more1) ++ more2) ths3 more3 ths4 m3 ->
  GoStr.is_int64 (rs_expires rs) = true -> utf8 (rs_access rs) ->
  client_reads (response_json rs) t -> token_from rp r t ->
  (forall now, In (Ev ONow now) (th_past th3) -> access_live k now) ->
  exists r', let_through (done (validate rp r)) (th_past th3) r r' /\ identified r r' i.
Proof.
  intros S W ok sess auth tok genuine L P A s0 progs s1 ths1 more1 s2 ths2 m1 E pol th1 (HO & HG & HM & HP & HP2) (Hm & Hth & HR) He.
  destruct (amid_complete W ok sess auth tok genuine L P A s0 progs more1 s1 ths1 s2 ths2 m1 HO HG HM HP HP2 E pol th1 Hm Hth HR He)
    as (req & i & H1 & H2 & H3).
  exists req, i. split; [exact H1|]. split; [exact H2|].
  intros l code HU HN (N1 & N2 & N3) HS HF. destruct (H3 HU) as (params & K1 & K2 & _).
  assert (HIn : In ("code", code) params).
  { destruct (wp_exec _ _ _ _ _ (complete_request_wp E pol) He) as (req' & info & tc & (uid & rest & Er) & E3 & HC).
    destruct H1 as (uid' & rest' & Er'). rewrite Er in E3. cbn [skipn] in E3. subst tc.
    assert (req' = req) as ->.
    { rewrite Er in Er'. apply (f_equal (fun l => option_map cont_ans (hd_error l))) in Er'. cbn in Er'. injection Er' as X. exact X. }
    eapply Permutation_in; [|exact (first_in _ _ _ HF)].
    rewrite Er in HS, K1.
    eapply (sees_sent _ _ _ _ _ [Ev OContinue (Some (Some req)); Ev OLoginUser (Some uid); Ev (OCreateInfo uid (rq_client req) (rq_scope req)) (info, None)]);
      [exact HC|reflexivity|exact K1|exact N1|exact N2|exact N3|exact HS]. }
  destruct (K2 _ HIn HN) as (x & X1 & X2 & X3 & X4 & X5 & X6). clear K1 K2 H3.
  intros more2 s3 ths3 m2 J te w body query gt c th2 (HM2 & HP3) (Hm2 & Hth2 & HR2) HU2 HSt HB HReg HW V1 V2 N4 V3 N5 HV HSig Hc HSign.
  destruct (PropsHttp.C82_parameters_arrive w body query "grant_type" HW) as (G1 & _). specialize (G1 _ V1).
  destruct (PropsHttp.C82_parameters_arrive w body query "code" HW) as (G2 & _). specialize (G2 _ V2).
  destruct (PropsHttp.C82_parameters_arrive w body query "redirect_uri" HW) as (G3 & _). specialize (G3 _ V3).
  pose proof (amid_reach W s0 progs more1 s1 ths1 HP) as R1. unfold reach in R1.
  pose proof (psteps_trans _ _ _ _ R1 HP2) as R2.
  assert (HG2 : Forall goidc (progs ++ more1)) by (apply Forall_app; auto).
  destruct (amid_redeemed W ok sess auth tok genuine L P A s0 (progs ++ more1) more2 s2 ths2 s3 ths3 m2 HO HG2 HM2 R2 HP3 J te (arrives w) c x i th2)
    as (now & tg & rs & k & T1 & T2 & T3 & T4 & T5 & T6 & T7 & T8); auto.
  - rewrite G1. exact HReg.
  - rewrite G2. exact X1.
  - rewrite G2. exact X6.
  - rewrite H2. exact HU2.
  - rewrite G2. exact HSt.
  - split; [congruence|]. split; [congruence|]. split; [congruence|]. split; [congruence|]. rewrite X5.
    destruct (string_dec (rq_verifier req) "") as [Ev|Ev]; [left; exact Ev|exact (proj1 (HV Ev))].
  - rewrite X5. intros Hv. destruct (HV Hv) as (_ & v & Hv1 & Hv2).
    rewrite (proj1 (PropsHttp.C82_parameters_arrive w body query "code_challenge" HW) _ Hv1). exact Hv2.
  - exists rs, k. split.
    { destruct T1 as (ta & l' & HA & -> & HH & _ & Hl). change (Ev ONow now :: tg ++ l')%list with ((Ev ONow now :: tg) ++ l')%list.
      rewrite app_assoc, http_ops_app, HH, Hl. reflexivity. }
    rewrite T2. do 4 (split; [assumption|]).
    intros more3 s4 ths4 m3 rp r th3 t (HM3 & HP4) (Hm3 & Hth3 & HR3) HU3 HI HU8 HRd HT HL.
    rewrite <- T2 in HU8. apply (client_reads_token rs t HI HU8) in HRd. subst t. rewrite T2 in HT.
    pose proof (amid_reach W s0 (progs ++ more1) more2 s2 ths2 R2) as R3. unfold reach in R3.
    pose proof (psteps_trans _ _ _ _ R3 HP3) as R4.
    assert (HG3 : Forall goidc ((progs ++ more1) ++ more2)) by (apply Forall_app; auto).
    rewrite <- T7 in T8.
    eapply (C76_tokens_on_record_keep_working _ _ _ _ _ _ _ s0 ((progs ++ more1) ++ more2) s3 ths3 more3 s4 ths4 (ot_access k) k i m3 rp r th3
      L P A HO HG3 HM3 R4 T6 T8 HP4 Hm3 HT Hth3 HR3); [|exact HL].
    rewrite H2. exact HU3.
Qed.
Print Assumptions C88_code_flow.

(** ** A story

    User 42 approves client1's request while client2 tries to guess the code; client1
    redeems the code while client2, which has overheard it, tries too; client1
    uses the token while client2 tries again. *)
Definition token_wire : wire :=
  Wire "POST" "/token" [("Content-Type", "application/x-www-form-urlencoded"); basic1] ""
    "grant_type=authorization%5Fcode&code=code1&redirect_uri=https%3a%2f%2frp.example%2fcb&code_challenge_method=plain&code_challenge=a-code-verifier".
Definition thief : prog unit := demo_token thief_request.
Definition story1 : list (prog unit) := [thief; demo_complete].
Definition story2 : list (prog unit) := [thief; demo_token (arrives token_wire)].
Definition story3 : list (prog unit) := [thief; done (validate rp0 used_request)].
Definition end1 := sched false agreeing ([0; 1; 0; 1; 0; 1; 1; 0; 1; 1; 1] ++ repeat 0 7)%nat%list store4 (map start story1).
Definition end2 := sched false agreeing (repeat 2 3 ++ repeat 3 4 ++ repeat 2 7 ++ repeat 3 10)%nat%list (fst end1) (snd end1 ++ map start story2)%list.
Definition end3 := sched false agreeing ([4; 5; 4; 5; 4; 5] ++ repeat 4 6)%nat%list (fst end2) (snd end2 ++ map start story3)%list.

Lemma story1_goidc : Forall goidc story1.
Proof. repeat constructor; exact te0_bundled. Qed.
Lemma story2_goidc : Forall goidc story2.
Proof. repeat constructor; exact te0_bundled. Qed.
Lemma story3_goidc : Forall goidc story3.
Proof. constructor; [apply g_token; exact te0_bundled|]. constructor; [apply g_resource|constructor]. Qed.

Lemma sched_both b w l s ths : psteps (sstep b) (s, ths) (fst (sched b w l s ths), snd (sched b w l s ths)).
Proof. pose proof (sched_run b w l s ths) as H. destruct (sched b w l s ths) as [s' ths']. exact H. Qed.

Definition guessing (past : list event) : bool :=
  match past with
  | Ev (OFindClient n) (Some c, None) :: _ => (seqb n "client2" && seqb (c_id c) "client2")%bool
  | _ => false
  end && negb (existsb (fun e => match ev_op e with OContinue => true | _ => false end) past).
Lemma thief_not past : guessing past = true -> ~ acts_for "client1" thief past.
Proof.
  intros H. unfold guessing in H. apply andb_true_iff in H. destruct H as [H1 H2].
  destruct past as [|[o a] past]; [discriminate|]. destruct o; try discriminate H1.
  destruct a as [[c|] [e|]]; try discriminate H1. apply andb_true_iff in H1. destruct H1 as [E1 E2]. apply seqb_eq in E1, E2. subst cid.
  eapply (not_for _ "client2" c); [reflexivity|discriminate|rewrite E2; discriminate|reflexivity|].
  apply negb_true_iff in H2. exact H2.
Qed.
(** Only thread [n], a thief, is at work besides thread [m]. *)
Lemma alone_thief progs (a b : list (thread unit)) n m : nth_error progs n = Some thief ->
  (forall j, j <> n -> j <> m -> nth_error b j = nth_error a j) ->
  option_map (fun th => guessing (th_past th)) (nth_error b n) = Some true -> undisturbed "client1" m progs a b.
Proof.
  intros Hn Hs Hg j p th1 th2 Hj Hp H1 H2. destruct (Nat.eq_dec j n) as [->|Hne].
  - right. rewrite Hn in Hp. injection Hp as <-. rewrite H2 in Hg. injection Hg as Hg. apply thief_not. exact Hg.
  - left. rewrite (Hs j Hne Hj) in H2. congruence.
Qed.

Example C88_example :
  let th1 := nth 1 (snd end1) (start thief) in let th2 := nth 3 (snd end2) (start thief) in let th3 := nth 5 (snd end3) (start thief) in
  let W := sstep false in
  history W tidiest store4 [] store4 [] story1 (fst end1) (snd end1) /\
  ended [] story1 (snd end1) 1 demo_complete th1 /\ exec demo_agree (th_past th1) (Done true) /\
  In (Ev OContinue (Some (Some agreed_request))) (th_past th1) /\ alone "client1" [] [] story1 (snd end1) 1 /\
  new_code (fun s code => sget code (st_sessions s)) store4 [] story1 (snd end1) 1 "code1" /\
  plain_uri "https://rp.example/cb" /\
  client_sees "query" "https://rp.example/cb" (th_past th1) [("code", "code1"); ("state", "s1")] /\
  then_calls W (fst end1) (snd end1) story2 (fst end2) (snd end2) /\
  ended (snd end1) story2 (snd end2) 1 (token_handler demoJ te0 (arrives token_wire)) th2 /\
  alone "client1" ([] ++ story1) (snd end1) story2 (snd end2) 1 /\
  (forall e, since (snd end1 ++ map start story2) (snd end2) e -> stores "code1" (ev_op e) = false) /\
  HttpSpec.sent token_wire [("grant_type", "authorization_code"); ("code", "code1"); ("redirect_uri", "https://rp.example/cb");
    ("code_challenge_method", "plain"); ("code_challenge", "a-code-verifier")] [] /\
  pkce_passed (arrives token_wire) "a-code-verifier" /\ signed_in demoJ te0 (arrives token_wire) client1 (th_past th2) /\
  then_calls W (fst end2) (snd end2) story3 (fst end3) (snd end3) /\
  ended (snd end2) story3 (snd end3) 1 (done (validate rp0 used_request)) th3 /\
  alone "client1" (([] ++ story1) ++ story2) (snd end2) story3 (snd end3) 1 /\
  client_reads "{""token_type"":""Bearer"",""access_token"":""ACCESS_TOKEN_0"",""expires_in"":86400,""scope"":""openid email"",""id_token"":""signed.id.token""}"
    "ACCESS_TOKEN_0" /\
  In (OBody "{""token_type"":""Bearer"",""access_token"":""ACCESS_TOKEN_0"",""expires_in"":86400,""scope"":""openid email"",""id_token"":""signed.id.token""}")
    (ops (th_past th2)) /\
  token_from rp0 used_request "ACCESS_TOKEN_0" /\
  (* the thief got nothing *)
  map (fun th => statuses (th_past th)) (snd end3) = [[400%Z]; []; [400%Z]; [200%Z]; [400%Z]; []].
Proof.
  cbv zeta.
  split. { split; [exact store4_tidiest|]. split; [constructor|]. split; [exact story1_goidc|]. split; [apply psteps_refl|].
           exact (sched_both false agreeing _ _ _). }
  split. { split; [reflexivity|]. split; [vm_compute; reflexivity|]. vm_compute. reflexivity. }
  split. { let t := eval vm_compute in (th_past (nth 1 (snd end1) (start thief))) in
             replace (th_past (nth 1 (snd end1) (start thief))) with t by (vm_compute; reflexivity).
           repeat first [apply exec_vis|apply exec_ret]. }
  split. { assert (X : hd_error (th_past (nth 1 (snd end1) (start thief))) = Some (Ev OContinue (Some (Some agreed_request)))) by (vm_compute; reflexivity).
           destruct (th_past (nth 1 (snd end1) (start thief))) as [|e l]; [discriminate X|]. left. injection X as ->. reflexivity. }
  split. { apply (alone_thief _ _ _ 0); [reflexivity| |vm_compute; reflexivity].
           intros [|[|j]] H1 H2; [destruct (H1 eq_refl)|destruct (H2 eq_refl)|].
           assert (X : length (snd end1) = 2%nat) by (vm_compute; reflexivity).
           transitivity (@None (thread unit)); [|symmetry; destruct j; reflexivity].
           apply nth_error_None. rewrite X. lia. }
  split. { split; [reflexivity|]. split; [intros z []|].
           intros e (n & a & b & t & Hn & H1 & H2 & H3 & H4).
           assert (X : forallb (fun e => negb (stores "code1" (ev_op e))) (match nth_error (snd end1) 0 with Some th => th_past th | None => [] end) = true)
             by (vm_compute; reflexivity).
           destruct n as [|[|n]]; [|destruct (Hn eq_refl)|destruct n; discriminate H1].
           rewrite H2 in X. rewrite forallb_forall in X. assert (HX : In e (th_past b)) by (rewrite H3; apply in_or_app; auto).
           apply X in HX. destruct (stores "code1" (ev_op e)); [discriminate HX|reflexivity]. }
  split. { repeat split; apply CodecFacts.no_byte_has; reflexivity. }
  split. { apply see_query with (loc := "https://rp.example/cb?code=code1&state=s1") (q := "code=code1&state=s1");
             [discriminate|discriminate|vm_compute; reflexivity| |apply form_text_iff; vm_compute; reflexivity].
           exists "https://rp.example/cb", "". split; [reflexivity|]. repeat (split; [apply CodecFacts.no_byte_has; reflexivity|]). auto. }
  split. { split; [exact story2_goidc|]. exact (sched_both false agreeing _ _ _). }
  split. { split; [reflexivity|]. split; [vm_compute; reflexivity|]. vm_compute. reflexivity. }
  assert (L1 : length (snd end1) = 2%nat) by (vm_compute; reflexivity).
  assert (L2 : length (snd end2) = 4%nat) by (vm_compute; reflexivity).
  assert (L3 : length (snd end3) = 6%nat) by (vm_compute; reflexivity).
  split. { unfold alone. rewrite L1. apply (alone_thief _ _ _ 2); [reflexivity| |vm_compute; reflexivity].
           intros j H1 H2. destruct (Nat.lt_ge_cases j 4) as [Hj|Hj].
           - destruct j as [|[|[|[|j]]]]; [vm_compute; reflexivity|vm_compute; reflexivity|destruct (H1 eq_refl)|destruct (H2 eq_refl)|lia].
           - transitivity (@None (thread unit)); [|symmetry]; apply nth_error_None; [rewrite L2; lia|rewrite app_length, L1; simpl; lia]. }
  split.
  { intros e (n & a & b & t & H1 & H2 & H3 & H4).
    assert (X : forallb (fun th => forallb (fun e => negb (stores "code1" (ev_op e))) (th_past th)) (skipn 2 (snd end2)) = true) by (vm_compute; reflexivity).
    assert (Y : firstn 2 (snd end2) = snd end1) by (vm_compute; reflexivity).
    rewrite <- (firstn_skipn 2 (snd end2)), Y in H2.
    destruct (Nat.lt_ge_cases n 2) as [Hn|Hn].
    - exfalso. rewrite nth_error_app1 in H1 by (rewrite L1; lia). rewrite nth_error_app1 in H2 by (rewrite L1; lia).
      rewrite H1 in H2. injection H2 as <-. rewrite <- (app_nil_r (th_past a)) in H3 at 1. apply app_inv_head in H3. subst t. destruct H4.
    - rewrite nth_error_app2 in H2 by (rewrite L1; lia). apply nth_error_In in H2. rewrite forallb_forall in X. apply X in H2.
      rewrite forallb_forall in H2. assert (HX : In e (th_past b)) by (rewrite H3; apply in_or_app; auto).
      apply H2 in HX. destruct (stores "code1" (ev_op e)); [discriminate HX|reflexivity]. }
  split.
  { split; [apply form_text_iff; vm_compute; reflexivity|]. left. split; [simpl; auto|]. split.
    - apply PropsHttp.plain_form. reflexivity.
    - split; [vm_compute; discriminate|apply form_text_iff; vm_compute; reflexivity]. }
  split. { right. left. repeat split; discriminate. }
  split.
  { assert (Y : firstn 2 (th_past (nth 3 (snd end2) (start thief))) = [Ev (OFindClient "client1") (Some client1, None); Ev ONow 1010%Z]) by (vm_compute; reflexivity).
    eapply signed_demo; [reflexivity|reflexivity|reflexivity|].
    rewrite <- (firstn_skipn 2 (th_past (nth 3 (snd end2) (start thief)))), Y. reflexivity. }
  split. { split; [exact story3_goidc|]. exact (sched_both false agreeing _ _ _). }
  split. { split; [reflexivity|]. split; [vm_compute; reflexivity|]. vm_compute. reflexivity. }
  split. { unfold alone. rewrite L2. apply (alone_thief _ _ _ 4); [reflexivity| |vm_compute; reflexivity].
           intros j H1 H2. destruct (Nat.lt_ge_cases j 6) as [Hj|Hj].
           - destruct j as [|[|[|[|[|[|j]]]]]]; [vm_compute; reflexivity..|destruct (H1 eq_refl)|destruct (H2 eq_refl)|lia].
           - transitivity (@None (thread unit)); [|symmetry]; apply nth_error_None; [rewrite L3; lia|rewrite app_length, L2; simpl; lia]. }
  split. { eexists. split; [apply JsonRead.jparse_iff; vm_compute; reflexivity|reflexivity]. }
  split. { assert (X : existsb (fun o => match o with OBody d => seqb d "{""token_type"":""Bearer"",""access_token"":""ACCESS_TOKEN_0"",""expires_in"":86400,""scope"":""openid email"",""id_token"":""signed.id.token""}" | _ => false end)
               (ops (th_past (nth 3 (snd end2) (start thief)))) = true) by (vm_compute; reflexivity).
           apply existsb_exists in X. destruct X as (o & Ho & Eo). destruct o; try discriminate Eo. apply seqb_eq in Eo. subst. exact Ho. }
  split. { change "ACCESS_TOKEN_0" with (find_token rp0 used_request). apply token_from_some. discriminate. }
  vm_compute. reflexivity.
Qed.
