(** * Refresh tokens that were given out work (C80). *)
From Coq Require Import Lia.
From Verif Require Import Core World Spec TokenSpec Grants TokenEndpoint AuthzResponse AuthzEndpoint AuthzSpec ResourceProtector
  ResourceSpec TestStore SysSpec TraceSpec IsolSpec WorkSpec RefreshSpec Hoare Demo SysFacts SysTrace StoreFacts SysDemo ResourceFacts
  TraceFacts IsolFacts LeakFacts WorkFacts RedeemFacts RefreshFacts PropsResource PropsTrace PropsIsol PropsWork.

(** ** C80 Refresh tokens that were given out work until they expire. *)

(* Over any data layer that keeps its promises, whatever happened so far and whatever
   else is going on, now and from now on: a token request of the client that presents
   a refresh token on record, for an authorization with scope offline_access, is
   answered with success unless what is found has expired, as long as no other call
   goes on acting for the client. *)
Theorem C80_refresh_tokens_on_record_keep_working :
  forall S (W : rworld S) ok sess auth tok genuine s0 progs s1 ths1 more s2 ths2 t k i m J te r c th,
  linked_store W ok sess auth -> separate_store W ok sess auth tok genuine -> answering_store W ok sess auth tok ->
  refreshing_store W ok tok ->
  ok s0 -> Forall goidc progs -> Forall goidc more ->
  psteps W (s0, map start progs) (s1, ths1) ->
  tok s1 t = Some k -> auth s1 (ot_auth_id k) = Some i ->
  psteps W (s1, ths1 ++ map start more)%list (s2, ths2) ->
  nth_error more m = Some (token_handler J te r) -> registered te (form_value r "grant_type") refresh_token ->
  form_value r "refresh_token" = ot_refresh k -> ot_refresh k <> "" ->
  nth_error ths2 (length ths1 + m) = Some th -> th_rest th = Ret tt ->
  undisturbed (ai_client i) (length ths1 + m) (progs ++ more) (ths1 ++ map start more) ths2 ->
  signed_in J te r c (th_past th) -> c_id c = ai_client i -> has_word (ai_scope i) "offline_access" ->
  (forall k' now, In (Ev (OFindByRefresh (ot_refresh k)) (Some k', None)) (th_past th) -> In (Ev ONow now) (th_past th) ->
     refresh_live k' now) ->
  In 200%Z (statuses (th_past th)).
Proof.
  intros S W ok sess auth tok genuine s0 progs s1 ths1 more s2 ths2 t k i m J te r c th L P A RF HO HG HM HP Ht Hi HP2 Hm HReg Er Nr
    Hth HR HU HSig Hc Hw HL.
  pose proof (psteps_frame W _ _ (map start more) HP) as HP1. cbn [fst snd] in HP1. rewrite <- map_app in HP1.
  destruct (told_psteps W ok sess auth L _ _ HP _ _ eq_refl HO) as (_ & F & _). cbn [snd] in F.
  pose proof (forall2_len _ _ _ F) as EL.
  assert (Hn : nth_error (progs ++ more)%list (length ths1 + m) = Some (token_handler J te r)).
  { rewrite <- EL, nth_error_app2 by lia. replace (length progs + m - length progs)%nat with m by lia. exact Hm. }
  assert (Hs : nth_error (ths1 ++ map start more)%list (length ths1 + m) = Some (start (token_handler J te r))).
  { rewrite nth_error_app2 by lia. replace (length ths1 + m - length ths1)%nat with m by lia. apply map_nth_error. exact Hm. }
  destruct (refresh_kept W ok sess auth tok genuine L P A RF s0 (progs ++ more) _ J te r t k i HO
      (proj2 (Forall_app _ _ _) (conj HG HM)) Hn HReg (eq_sym Er) ltac:(congruence) _ _ HP2 HP1 Ht Hi Hs HU) as (th' & E & (A1 & A2 & A3) & _).
  cbn [snd] in E. rewrite Hth in E. injection E as <-.
  destruct (told_psteps W ok sess auth L _ _ (psteps_trans _ _ _ _ HP1 HP2) _ _ eq_refl HO) as (_ & F2 & _). cbn [snd] in F2.
  destruct (forall2_nth _ _ _ _ _ F2 Hth) as (p2 & E2 & HSt2). rewrite Hn in E2. injection E2 as <-.
  assert (He : exec (token_handler J te r) (th_past th) (Done tt)).
  { rewrite <- (app_nil_r (th_past th)). eapply steps_exec; [exact HSt2|]. rewrite HR. constructor. }
  destruct (signed_granted _ _ _ _ _ _ _ He HSig HReg) as (now & tg & y & G1 & G2 & G3).
  destruct (refresh_good _ _ _ _ _ (ot_auth_id k) i G1 ltac:(congruence) (eq_sym Hc) Hw) as [rs ->].
  - intros a Ha. destruct (A1 a) as (k' & -> & Ek); [apply G2; simpl; auto|]. exists k'. split; [reflexivity|]. split; [exact Ek|].
    apply HL; [|apply G2; simpl; auto]. rewrite <- Er. apply G2. simpl. auto.
  - intros a Ha. apply A2, G2. simpl. auto.
  - intros i' k' a Ha. apply (A3 i' k'), G2. simpl. auto.
  - exact (G3 _ eq_refl).
Qed.
Print Assumptions C80_refresh_tokens_on_record_keep_working.

(* Over the bundled store, from the answer to a token request on, if it has a refresh
   token and the scope in it includes offline_access: whatever others do, the client
   gets a new access token for the refresh token. *)
Theorem C80_bundled_store : forall b s J te r tr s1 progs s2 ths,
  renewable s -> only_bundled J te ->
  rsteps (sstep b) s (token_handler J te r) tr (Ret tt) s1 -> In 200%Z (statuses tr) ->
  Forall goidc progs -> psteps (sstep b) (s1, map start progs) (s2, ths) ->
  exists c now tg rs, served J te r tr c now tg rs /\
    forall m J1 te1 r1 c1 th,
      rs_refresh rs <> "" -> has_word (rs_scope rs) "offline_access" ->
      nth_error progs m = Some (token_handler J1 te1 r1) -> registered te1 (form_value r1 "grant_type") refresh_token ->
      form_value r1 "refresh_token" = rs_refresh rs ->
      nth_error ths m = Some th -> th_rest th = Ret tt -> signed_in J1 te1 r1 c1 (th_past th) -> c_id c1 = c_id c ->
      (forall n p th', n <> m -> nth_error progs n = Some p -> nth_error ths n = Some th' -> ~ acts_for (c_id c) p (th_past th')) ->
      (forall k now, In (Ev (OFindByRefresh (rs_refresh rs)) (Some k, None)) (th_past th) -> In (Ev ONow now) (th_past th) ->
         refresh_live k now) ->
      In 200%Z (statuses (th_past th)).
Proof.
  intros b s J te r tr s1 progs s2 ths HT HB HR H2 HG HP.
  destruct (C76_given_out_tokens_are_on_record _ _ _ _ _ _ _ _ _ _ _ _ _ (bundled_linked5 b) (bundled_separate5 b) (bundled_answering5 b) HB HT HR H2)
    as (c & now & tg & rs & k & i & HS & E1 & E2 & Er & E3 & E4 & Hk & Hi).
  exists c, now, tg, rs. split; [exact HS|].
  intros m J1 te1 r1 c1 th Hne Hw Hm HReg Ef Hth HE HSig Hc HN HL.
  assert (HO1 : renewable s1) by (eapply (rsteps_inv_ok _ _ _ _ (bundled_linked5 b)); eauto).
  apply (C80_refresh_tokens_on_record_keep_working _ _ _ _ _ _ _ s1 [] s1 [] progs s2 ths _ k i m J1 te1 r1 c1 th
      (bundled_linked5 b) (bundled_separate5 b) (bundled_answering5 b) (bundled_refreshing b) HO1 (Forall_nil _) HG (psteps_refl _ _) Hk Hi HP Hm HReg);
    try assumption; try congruence.
  - intros n p th1 th2 Hn Hp _ Ht2. right. rewrite E4. exact (HN n p th2 Hn Hp Ht2).
  - rewrite <- Er. exact HL.
Qed.
Print Assumptions C80_bundled_store.

(** client1 redeems its code and gets a refresh token; afterwards client2 tries the
    refresh token while client1 uses it. *)
Definition offline_info : authinfo := AuthInfo 7 "client1" 42 "42" "openid offline_access" 0 true.
Definition store5 : store :=
  Store 8 [] [("client1", client1); ("client2", client2)] [(7%Z, offline_info)] [("code1", session1 "")] [].
Definition renew_request : request := req [basic1] [] [("grant_type", "refresh_token"); ("refresh_token", "REFRESH_TOKEN_7")].
Definition renew_theft : request := req [basic2] [] [("grant_type", "refresh_token"); ("refresh_token", "REFRESH_TOKEN_7")].
Definition offline_run := srun false agreeing 14 store5 (demo_token code_request).
Definition renewals : list (prog unit) := [demo_token renew_theft; demo_token renew_request].
Definition renewals_run : store * list (thread unit) :=
  sched false agreeing (repeat 0 3 ++ repeat 1 4 ++ repeat 0 7 ++ repeat 1 7)%nat%list (snd offline_run) (map start renewals).

Definition refresh_seen (e : event) : list (dres oauthtoken) :=
  match e with Ev o a => (match o as o0 return ans o0 -> list (dres oauthtoken) with OFindByRefresh _ => fun a => [a] | _ => fun _ => [] end) a end.
Definition now_seen (e : event) : list Z :=
  match e with Ev o a => (match o as o0 return ans o0 -> list Z with ONow => fun a => [a] | _ => fun _ => [] end) a end.

Lemma store5_renewable : renewable store5.
Proof.
  split.
  - split; [split; [split; [|split]|]|].
    + intros code x H. cbn in H.
      destruct (seqb code "code1") eqn:E1; [apply seqb_eq in E1; injection H as <-; auto|discriminate].
    + intros id i [H|[]]. injection H as <- <-; split; reflexivity.
    + repeat constructor; simpl; intuition discriminate.
    + constructor.
    + intros t k [].
  - intros t k [].
Qed.
Lemma te0_refresh : registered te0 "refresh_token" refresh_token.
Proof.
  exists [("authorization_code", authorization_code demoJ)], [("password", password_grant); ("client_credentials", client_credentials);
     (TypeJWT, jwt_grant demoJ)]. split; [reflexivity|]. simpl. intuition discriminate.
Qed.

Example C80_example :
  renewable store5 /\ rsteps (sstep false) store5 (demo_token code_request) (fst (fst offline_run)) (Ret tt) (snd offline_run) /\
  statuses (fst (fst offline_run)) = [200%Z] /\ Forall goidc renewals /\
  psteps (sstep false) (snd offline_run, map start renewals) renewals_run /\
  map (fun th => statuses (th_past th)) (snd renewals_run) = [[400%Z]; [200%Z]] /\
  registered te0 (form_value renew_request "grant_type") refresh_token /\
  form_value renew_request "refresh_token" = "REFRESH_TOKEN_7" /\
  sget "ACCESS_TOKEN_7" (st_tokens (snd offline_run)) = Some (created_token offline_info 1010 1010) /\
  ot_refresh (created_token offline_info 1010 1010) = "REFRESH_TOKEN_7" /\
  (forall th, nth_error (snd renewals_run) 1 = Some th -> th_rest th = Ret tt /\ signed_in demoJ te0 renew_request client1 (th_past th)) /\
  (forall n p th', n <> 1%nat -> nth_error renewals n = Some p -> nth_error (snd renewals_run) n = Some th' -> ~ acts_for "client1" p (th_past th')) /\
  (forall th k now, nth_error (snd renewals_run) 1 = Some th ->
     In (Ev (OFindByRefresh "REFRESH_TOKEN_7") (Some k, None)) (th_past th) -> In (Ev ONow now) (th_past th) -> refresh_live k now).
Proof.
  split; [exact store5_renewable|].
  split.
  { assert (E : snd (fst offline_run) = Ret tt) by (vm_compute; reflexivity). rewrite <- E. apply (srun_rsteps false agreeing 14).
    fold offline_run. destruct offline_run as [[t q] s']. reflexivity. }
  split; [vm_compute; reflexivity|].
  split. { repeat constructor; exact te0_bundled. }
  split; [exact (sched_run false agreeing _ _ _)|]. split; [vm_compute; reflexivity|].
  split; [exact te0_refresh|]. split; [reflexivity|]. split; [vm_compute; reflexivity|]. split; [vm_compute; reflexivity|].
  split.
  { intros th Hth.
    assert (X : option_map th_rest (nth_error (snd renewals_run) 1) = Some (Ret tt)) by (vm_compute; reflexivity).
    assert (Y : option_map (fun th => firstn 2 (th_past th)) (nth_error (snd renewals_run) 1) =
       Some [Ev (OFindClient "client1") (Some client1, None); Ev ONow 1010%Z]) by (vm_compute; reflexivity).
    rewrite Hth in X, Y. injection X as X. split; [exact X|].
    assert (Y' : firstn 2 (th_past th) = [Ev (OFindClient "client1") (Some client1, None); Ev ONow 1010%Z]) by (cbn [option_map] in Y; congruence).
    eapply signed_demo; [reflexivity|reflexivity|reflexivity|]. rewrite <- (firstn_skipn 2 (th_past th)), Y'. reflexivity. }
  split.
  - intros [|[|n]] p th Hn Hp Ht.
    + injection Hp as <-. eapply (not_for _ "client2" client2); [reflexivity|discriminate|discriminate| |].
      * assert (X : option_map (fun th => hd_error (th_past th)) (nth_error (snd renewals_run) 0) =
                    Some (Some (Ev (OFindClient "client2") (Some client2, None)))) by (vm_compute; reflexivity).
        rewrite Ht in X. injection X as X. exact X.
      * assert (X : option_map (fun th => existsb (fun e => match ev_op e with OContinue => true | _ => false end) (th_past th))
                      (nth_error (snd renewals_run) 0) = Some false) by (vm_compute; reflexivity).
        rewrite Ht in X. injection X as X. exact X.
    + congruence.
    + clear Ht. destruct n; discriminate Hp.
  - intros th k now Hth Hk Hn.
    assert (X : option_map (fun th => (flat_map refresh_seen (th_past th), flat_map now_seen (th_past th))) (nth_error (snd renewals_run) 1) =
      Some ([(Some (created_token offline_info 1010 1010), None)], [1010%Z])) by (vm_compute; reflexivity).
    rewrite Hth in X. injection X as X1 X2.
    assert (In (Some k, None) (flat_map refresh_seen (th_past th))) as K by (apply in_flat_map; eexists; split; [exact Hk|simpl; auto]).
    assert (In now (flat_map now_seen (th_past th))) as N by (apply in_flat_map; eexists; split; [exact Hn|simpl; auto]).
    rewrite X1 in K. rewrite X2 in N. destruct K as [K|[]], N as [<-|[]]. injection K as <-.
    unfold refresh_live. vm_compute. discriminate.
Qed.
