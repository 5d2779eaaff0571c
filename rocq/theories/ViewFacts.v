(** * One call's own steps, in an interleaving with others. *)
From Coq Require Import Lia.
From Verif Require Import Hoare WpTac Core World Spec TokenSpec OAuthError Assertion Grants TokenEndpoint GrantFacts TokenFacts
  TokenProofs LogFacts TokenMore ResourceProtector ResourceSpec ResourceFacts AuthzResponse AuthzEndpoint AuthzSpec AuthzFacts
  AuthzProofs AuthzMore SysSpec SysFacts SysTrace JsonParse JsonFacts TestStore StoreFacts TraceSpec TraceFacts IsolSpec IsolFacts
  LeakFacts WorkSpec SysDemo WorkFacts RedeemFacts.

(** What threads other than [m] did between two moments of an interleaving. *)
Definition others_since (m : nat) (ths1 ths2 : list (thread unit)) (e : event) : Prop :=
  exists n th1 th2 t, n <> m /\ nth_error ths1 n = Some th1 /\ nth_error ths2 n = Some th2 /\
    th_past th2 = (th_past th1 ++ t)%list /\ In e t.

Section View.
  Context {S : Type} (W : rworld S) (ok : S -> Prop) (sess : S -> string -> option authsession)
          (auth : S -> Z -> option authinfo) (tok : S -> string -> option oauthtoken) (genuine : oauthtoken -> Prop).
  Hypothesis L : linked_store W ok sess auth.
  Hypothesis P : separate_store W ok sess auth tok genuine.
  Hypothesis A : answering_store W ok sess auth tok.
  Context (s0 : S) (progs : list (prog unit)) (m : nat) (cid : string) (Q : op -> Prop).
  Hypothesis HO : ok s0.
  Hypothesis HG : Forall goidc progs.

  Definition reach (c : S * list (thread unit)) : Prop := psteps W (s0, map start progs) c.

  Inductive mine : S * list (thread unit) -> event -> S * list (thread unit) -> Prop :=
  | mine_one s s' before past o k x after :
      length before = m -> W s o x s' ->
      mine (s, before ++ Thread past (Vis o k) :: after)%list (Ev o x)
           (s', before ++ Thread (past ++ [Ev o x]) (k x) :: after)%list.
  Inductive other : S * list (thread unit) -> S * list (thread unit) -> Prop :=
  | other_one s s' before past o k x after p :
      length before <> m -> W s o x s' -> nth_error progs (length before) = Some p ->
      ~ acts_for cid p (past ++ [Ev o x]) -> ~ Q o ->
      other (s, before ++ Thread past (Vis o k) :: after)%list
            (s', before ++ Thread (past ++ [Ev o x]) (k x) :: after)%list.
  (** [m] performed the events, the others whatever. *)
  Inductive view : S * list (thread unit) -> list event -> S * list (thread unit) -> Prop :=
  | view_nil c : view c [] c
  | view_mine c1 e c2 tr c3 : mine c1 e c2 -> view c2 tr c3 -> view c1 (e :: tr) c3
  | view_other c1 c2 tr c3 : other c1 c2 -> view c2 tr c3 -> view c1 tr c3.

  Lemma mine_step c e c' : mine c e c' -> psteps W c c'.
  Proof. intros H. destruct H. econstructor; [constructor|]. constructor. assumption. Qed.
  Lemma other_step c c' : other c c' -> psteps W c c'.
  Proof. intros H. destruct H. econstructor; [constructor|]. constructor. assumption. Qed.
  Lemma view_steps c tr c' : view c tr c' -> psteps W c c'.
  Proof.
    induction 1 as [c|c1 e c2 tr c3 H1 H2 IH|c1 c2 tr c3 H1 H2 IH]; [constructor| |];
      eapply psteps_trans; eauto using mine_step, other_step.
  Qed.
  Lemma view_reach c tr c' : reach c -> view c tr c' -> reach c'.
  Proof. intros H1 H2. eapply psteps_trans; [exact H1|eapply view_steps; eauto]. Qed.
  Lemma reach_ok c : reach c -> ok (fst c).
  Proof. intros H. exact (proj1 (told_psteps W ok sess auth L _ _ H _ _ eq_refl HO)). Qed.

  Lemma view_app c1 t1 c2 t2 c3 : view c1 t1 c2 -> view c2 t2 c3 -> view c1 (t1 ++ t2) c3.
  Proof. induction 1; intros; simpl; [assumption|econstructor; eauto|eapply view_other; eauto]. Qed.
  Lemma view_split c1 t1 t2 c3 : view c1 (t1 ++ t2) c3 -> exists c2, view c1 t1 c2 /\ view c2 t2 c3.
  Proof.
    intros H. remember (t1 ++ t2)%list as tr eqn:E. revert t1 E.
    induction H as [c|c1 e c2 tr c3 H1 H2 IH|c1 c2 tr c3 H1 H2 IH]; intros t1 E.
    - symmetry in E. apply app_eq_nil in E. destruct E as [-> ->]. exists c. split; constructor.
    - destruct t1 as [|e1 t1]; simpl in E.
      + exists c1. split; [constructor|]. rewrite <- E. econstructor; eauto.
      + injection E as -> E. destruct (IH _ E) as (c & V1 & V2). exists c. split; [econstructor; eauto|exact V2].
    - destruct (IH _ E) as (c & V1 & V2). exists c. split; [eapply view_other; eauto|exact V2].
  Qed.
  Lemma view_one c1 e tr c3 : view c1 (e :: tr) c3 -> exists c c2, view c1 [] c /\ mine c e c2 /\ view c2 tr c3.
  Proof.
    intros H. remember (e :: tr) as l eqn:E. revert e tr E.
    induction H as [c|c1 e' c2 tr' c3 H1 H2 IH|c1 c2 tr' c3 H1 H2 IH]; intros e tr E; [discriminate| |].
    - injection E as -> ->. exists c1, c2. split; [constructor|auto].
    - destruct (IH _ _ E) as (c & c' & V1 & V2 & V3). exists c, c'. split; [eapply view_other; eauto|auto].
  Qed.
  Lemma mine_world c e c' : mine c e c' -> exists o x, e = Ev o x /\ W (fst c) o x (fst c').
  Proof. intros H. destruct H as [s s' before past o k x after _ HW]. exists o, x. auto. Qed.

  (** Interleavings, seen from thread [m]. *)
  Lemma psteps_view c1 c2 : reach c1 -> psteps W c1 c2 -> undisturbed cid m progs (snd c1) (snd c2) ->
    (forall e, others_since m (snd c1) (snd c2) e -> ~ Q (ev_op e)) ->
    exists tr, view c1 tr c2 /\
      forall th1 th2, nth_error (snd c1) m = Some th1 -> nth_error (snd c2) m = Some th2 -> th_past th2 = (th_past th1 ++ tr)%list.
  Proof.
    intros HR HP. induction HP as [c|c1 c2 c3 H1 IH H2]; intros HU HQ.
    - exists []. split; [constructor|]. intros th1 th2 E1 E2. rewrite E1 in E2. injection E2 as <-. rewrite app_nil_r. reflexivity.
    - specialize (IH HR).
      destruct (told_psteps W ok sess auth L _ _ (psteps_trans _ _ _ _ HR H1) _ _ eq_refl HO) as (_ & F & _).
      destruct H2 as [s s' before past o k x after HW]. cbn [fst snd] in *.
      assert (Hp : exists p, nth_error progs (length before) = Some p).
      { destruct (forall2_nth _ _ _ _ _ F (nth_mid before (Thread past (Vis o k)) after)) as (p & Hp & _). eauto. }
      destruct Hp as [p Hp]. destruct c1 as [s1 ths1]. cbn [fst snd] in *.
      destruct (undisturbed_back W _ _ _ _ _ _ _ _ _ _ _ _ _ H1 HU Hp) as [HU' HN].
      assert (HQ' : forall e, others_since m ths1 (before ++ Thread past (Vis o k) :: after) e -> ~ Q (ev_op e)).
      { intros e (n & th1 & th2 & t & Hn & E1 & E2 & E3 & E4). apply HQ. destruct (Nat.eq_dec n (length before)) as [->|Hne].
        - rewrite nth_mid in E2. injection E2 as <-. simpl in E3.
          exists (length before), th1. eexists. exists (t ++ [Ev o x])%list. split; [exact Hn|]. split; [exact E1|]. split; [apply nth_mid|]. simpl.
          rewrite E3, app_assoc. split; [reflexivity|]. apply in_or_app. auto.
        - exists n, th1, th2, t. split; [exact Hn|]. split; [exact E1|]. split; [|auto]. rewrite <- E2. apply nth_other. exact Hne. }
      destruct (IH HU' HQ') as (tr & V & E). clear IH.
      destruct (Nat.eq_dec (length before) m) as [Em|Em].
      + exists (tr ++ [Ev o x])%list. split.
        { eapply view_app; [exact V|]. econstructor; [constructor; [exact Em|exact HW]|constructor]. }
        intros th1 th2 E1 E2. rewrite <- Em, nth_mid in E2. injection E2 as <-. simpl. rewrite app_assoc. f_equal.
        apply (E th1 (Thread past (Vis o k)) E1). rewrite <- Em. apply nth_mid.
      + exists tr. split.
        { rewrite <- (app_nil_r tr). eapply view_app; [exact V|]. eapply view_other; [|constructor]. econstructor; eauto.
          assert (HS : exists th1, nth_error ths1 (length before) = Some th1).
          { destruct (psteps_grow W _ _ H1) as [HL _]. cbn [snd] in HL.
            destruct (nth_error ths1 (length before)) eqn:E1; [eauto|]. exfalso. apply nth_error_None in E1. rewrite <- HL, app_length in E1. simpl in E1. lia. }
          destruct HS as [th1 E1]. destruct (psteps_grow W _ _ H1) as [_ HGr]. cbn [snd] in HGr.
          destruct (HGr _ _ E1) as (th2 & t & E2 & E3). rewrite nth_mid in E2. injection E2 as <-. simpl in E3.
          apply (HQ (Ev o x)). exists (length before), th1. eexists. exists (t ++ [Ev o x])%list.
          split; [exact Em|]. split; [exact E1|]. split; [apply nth_mid|]. simpl. rewrite E3, app_assoc. split; [reflexivity|].
          apply in_or_app. simpl. auto. }
        intros th1 th2 E1 E2. apply (E th1 th2 E1). rewrite <- E2. apply nth_other. auto.
  Qed.

  (** While [m] does nothing but harmless things, what belongs to the client is kept. *)
  Lemma other_keep c c' : reach c -> other c c' -> forall id i, auth (fst c) id = Some i -> ai_client i = cid ->
    auth (fst c') id = Some i /\ (forall t k, tok (fst c) t = Some k -> ot_auth_id k = id -> tok (fst c') t = Some k).
  Proof.
    intros HR H. destruct H as [s s' before past o k x after p Hn HW Hp HN _]. cbn [fst].
    intros id i Hi Hc. destruct (quiet_step W ok sess auth tok genuine L P _ _ _ _ _ _ _ _ _ _ _ _ HR HO HG HW Hp HN _ _ Hi Hc) as (Q1 & Q2 & _).
    auto.
  Qed.
  Lemma view_keep c tr c' : view c tr c' -> reach c -> (forall e, In e tr -> harmless (ev_op e) = true) ->
    forall id i, auth (fst c) id = Some i -> ai_client i = cid ->
    auth (fst c') id = Some i /\ (forall t k, tok (fst c) t = Some k -> ot_auth_id k = id -> tok (fst c') t = Some k).
  Proof.
    induction 1 as [c|c1 e c2 tr c3 H1 H2 IH|c1 c2 tr c3 H1 H2 IH]; intros HR HH id i Hi Hc; [auto| |].
    - pose proof (reach_ok _ HR) as HO1. destruct (mine_world _ _ _ H1) as (o & x & -> & HW).
      pose proof (HH _ (or_introl eq_refl)) as Ho. simpl in Ho.
      assert (K1 : auth (fst c2) id = Some i).
      { destruct (sp_info _ _ _ _ _ _ P _ _ _ _ _ _ HO1 HW Hi) as [H|(u & c & sc & j & E & _)]; [exact H|].
        apply (f_equal ev_op) in E. simpl in E. subst o. discriminate. }
      assert (K2 : forall t k, tok (fst c1) t = Some k -> tok (fst c2) t = Some k).
      { intros t k Ht. destruct (sp_token _ _ _ _ _ _ P _ _ _ _ _ _ HO1 HW Ht) as [H|[(j & b & -> & _)|(j & old & -> & _)]];
          [exact H|discriminate|discriminate]. }
      destruct (IH (view_reach _ _ _ HR (view_mine _ _ _ _ _ H1 (view_nil _))) (fun e He => HH e (or_intror He)) id i K1 Hc) as (I1 & I2).
      split; [exact I1|]. intros t k Ht Hk. auto.
    - destruct (other_keep _ _ HR H1 _ _ Hi Hc) as [K1 K2].
      destruct (IH (view_reach _ _ _ HR (view_other _ _ _ _ H1 (view_nil _))) HH id i K1 Hc) as (I1 & I2).
      split; [exact I1|]. intros t k Ht Hk. auto.
  Qed.

  (** While [m] does not call CreateOrUpdateAuthInfo, the client's authorizations are kept. *)
  Definition makes_info (o : op) : bool := match o with OCreateInfo _ _ _ => true | _ => false end.
  Lemma view_auth c tr c' : view c tr c' -> reach c -> (forall e, In e tr -> makes_info (ev_op e) = false) ->
    forall id i, auth (fst c) id = Some i -> ai_client i = cid -> auth (fst c') id = Some i.
  Proof.
    induction 1 as [c|c1 e c2 tr c3 H1 H2 IH|c1 c2 tr c3 H1 H2 IH]; intros HR HH id i Hi Hc; [auto| |].
    - pose proof (reach_ok _ HR) as HO1. destruct (mine_world _ _ _ H1) as (o & x & -> & HW).
      pose proof (HH _ (or_introl eq_refl)) as Ho. simpl in Ho.
      apply (IH (view_reach _ _ _ HR (view_mine _ _ _ _ _ H1 (view_nil _))) (fun e He => HH e (or_intror He))); [|exact Hc].
      destruct (sp_info _ _ _ _ _ _ P _ _ _ _ _ _ HO1 HW Hi) as [H|(u & c & sc & j & E & _)]; [exact H|].
      apply (f_equal ev_op) in E. simpl in E. subst o. discriminate.
    - destruct (other_keep _ _ HR H1 _ _ Hi Hc) as [K1 _].
      exact (IH (view_reach _ _ _ HR (view_other _ _ _ _ H1 (view_nil _))) HH id i K1 Hc).
  Qed.

  (** An authorization was looked up or made, then a token was made for it. *)
  Lemma view_issue c t1 e1 t2 i b k t3 c' :
    view c (t1 ++ e1 :: t2 ++ Ev (OCreateToken (Some i) b) (Some k, None) :: t3) c' -> reach c ->
    ((exists id, e1 = Ev (OFindActiveInfo id) (Some i, None)) \/ (exists uid ci sc, e1 = Ev (OCreateInfo uid ci sc) (Some i, None)) \/
     exists uid ci, e1 = Ev (OFindInfo uid ci) (Some i, None)) ->
    ai_client i = cid -> (forall e, In e t2 -> makes_info (ev_op e) = false) -> (forall e, In e t3 -> harmless (ev_op e) = true) ->
    tok (fst c') (ot_access k) = Some k /\ ot_auth_id k = ai_id i /\ auth (fst c') (ai_id i) = Some i.
  Proof.
    intros HV HR He Hc HN HH.
    destruct (view_split _ _ _ _ HV) as (c1 & V1 & V2). pose proof (view_reach _ _ _ HR V1) as R1.
    destruct (view_one _ _ _ _ V2) as (c2 & c3 & V3 & M1 & V4). pose proof (view_reach _ _ _ R1 V3) as R2.
    pose proof (reach_ok _ R2) as O2. destruct (mine_world _ _ _ M1) as (o & x & Ee & HW).
    pose proof (view_reach _ _ _ R2 (view_mine _ _ _ _ _ M1 (view_nil _))) as R3.
    assert (HA : auth (fst c3) (ai_id i) = Some i).
    { destruct He as [[id ->]|[(uid & ci & sc & ->)|(uid & ci & ->)]].
      - pose proof (wev_eq W _ _ _ _ _ HW (eq_sym Ee)) as HW'.
        destruct (ll_active _ _ _ _ L _ _ _ _ O2 HW') as [A1 A2]. rewrite A2.
        apply (reads_keep W ok sess auth tok genuine P _ _ _ _ O2 HW'); [reflexivity|exact A1].
      - exact (proj1 (ll_create _ _ _ _ L _ _ _ _ _ _ O2 (wev_eq W _ _ _ _ _ HW (eq_sym Ee)))).
      - pose proof (wev_eq W _ _ _ _ _ HW (eq_sym Ee)) as HW'.
        apply (reads_keep W ok sess auth tok genuine P _ _ _ _ O2 HW'); [reflexivity|].
        exact (proj1 (ll_info _ _ _ _ L _ _ _ _ _ O2 HW')). }
    destruct (view_split _ _ _ _ V4) as (c4 & V5 & V6). pose proof (view_reach _ _ _ R3 V5) as R4.
    pose proof (view_auth _ _ _ V5 R3 HN _ _ HA Hc) as K1.
    destruct (view_one _ _ _ _ V6) as (c5 & c6 & V7 & M2 & V8). pose proof (view_reach _ _ _ R4 V7) as R5.
    destruct (view_keep _ _ _ V7 R4 (fun e (Hi : In e []) => match Hi with end) _ _ K1 Hc) as [K2 _].
    pose proof (reach_ok _ R5) as O5. destruct (mine_world _ _ _ M2) as (o' & x' & E' & HW4).
    pose proof (wev_eq W _ _ _ _ _ HW4 (eq_sym E')) as HW4'.
    destruct (an_create _ _ _ _ _ A _ _ _ _ _ O5 HW4') as (k' & Ek & T1 & T2). injection Ek as <-.
    assert (HA4 : auth (fst c6) (ai_id i) = Some i).
    { destruct (sp_info _ _ _ _ _ _ P _ _ _ _ _ _ O5 HW4' K2) as [H|(u & ci & sc & j & X & _)]; [exact H|discriminate]. }
    pose proof (view_reach _ _ _ R5 (view_mine _ _ _ _ _ M2 (view_nil _))) as R6.
    destruct (view_keep _ _ _ V8 R6 HH _ _ HA4 Hc) as [K3 K4].
    split; [apply K4; auto|]. auto.
  Qed.

  (** Sessions. *)
  Definition session_on (code : string) (x : authsession) (i : authinfo) (c : S * list (thread unit)) : Prop :=
    sess (fst c) code = Some x /\ auth (fst c) (as_auth_id x) = Some i /\
    forall z, In (Ev (OFindSession code) (Some z, None)) (all_events (snd c)) -> z = x.
  Definition leaves (code : string) (o : op) : bool :=
    match o with OCreateInfo _ _ _ | ODisable _ => false | _ => negb (stores code o) end.
  Hypothesis code_ : string.
  Hypothesis HQ : forall o, ~ Q o -> stores code_ o = false.

  Lemma events_more (before : list (thread unit)) past o k x after e :
    In e (all_events (before ++ Thread (past ++ [Ev o x]) (k x) :: after)) ->
    In e (all_events (before ++ Thread past (Vis o k) :: after)) \/ e = Ev o x.
  Proof. unfold all_events. rewrite !flat_map_app. cbn [flat_map th_past]. rewrite !in_app_iff. simpl. intuition. Qed.

  Lemma view_session c tr c' x i : view c tr c' -> reach c -> (forall e, In e tr -> leaves code_ (ev_op e) = true) ->
    ai_client i = cid -> session_on code_ x i c -> session_on code_ x i c'.
  Proof.
    intros HV. induction HV as [c|c1 e c2 tr c3 H1 H2 IH|c1 c2 tr c3 H1 H2 IH]; intros HR HH Hc HS; [exact HS| |].
    - apply IH; [exact (view_reach _ _ _ HR (view_mine _ _ _ _ _ H1 (view_nil _)))|intros; apply HH; simpl; auto|exact Hc|].
      pose proof (HH _ (or_introl eq_refl)) as Ho. clear IH H2 HH.
      pose proof (reach_ok _ HR) as O1. destruct HS as (K1 & K2 & K3).
      destruct H1 as [s s' before past o k a after _ HW]. cbn [fst snd ev_op] in *. split; [|split].
      + destruct (sp_session _ _ _ _ _ _ P _ _ _ _ _ _ O1 HW K1) as [X|[X|(z & X & _)]]; [exact X| |subst o; discriminate Ho].
        exfalso. unfold leaves in Ho. rewrite X in Ho. destruct o; discriminate.
      + destruct (sp_info _ _ _ _ _ _ P _ _ _ _ _ _ O1 HW K2) as [X|(u & ci & sc & j & X & _)]; [exact X|].
        apply (f_equal ev_op) in X. simpl in X. subst o. discriminate Ho.
      + intros z Hz. apply events_more in Hz. destruct Hz as [Hz|Hz]; [auto|].
        pose proof (an_session _ _ _ _ _ A _ _ _ _ _ O1 K1 (wev_eq W _ _ _ _ _ HW (eq_sym Hz))). congruence.
    - apply IH; [exact (view_reach _ _ _ HR (view_other _ _ _ _ H1 (view_nil _)))|exact HH|exact Hc|].
      clear IH H2 HH. pose proof (reach_ok _ HR) as O1. destruct HS as (K1 & K2 & K3).
      destruct H1 as [s s' before past o k a after p Hn HW Hp HN HNQ]. cbn [fst snd] in *.
      destruct (quiet_step W ok sess auth tok genuine L P _ _ _ _ _ _ _ _ _ _ _ _ HR HO HG HW Hp HN _ _ K2 Hc) as (Q1 & _ & Q3).
      split; [|split; [exact Q1|]].
      + destruct (sp_session _ _ _ _ _ _ P _ _ _ _ _ _ O1 HW K1) as [X|[X|(z & -> & Ez)]]; [exact X|rewrite (HQ _ HNQ) in X; discriminate X|].
        exfalso. apply (Q3 z a eq_refl). f_equal. apply K3.
        assert (HGp : goidc p). { rewrite Forall_forall in HG. apply HG. eapply nth_error_In; eauto. }
        destruct (told_psteps W ok sess auth L _ _ HR _ _ eq_refl HO) as (_ & F & _). cbn [snd] in F.
        destruct (forall2_nth _ _ _ _ _ F (nth_mid before (Thread past (Vis (ODisable z) k)) after)) as (p' & Hp' & HSt).
        rewrite Hp in Hp'. injection Hp' as <-. cbn [th_past th_rest] in HSt.
        assert (HIn : In (Ev (ODisable z) a) (past ++ [Ev (ODisable z) a])) by (apply in_or_app; simpl; auto).
        destruct (disable_owner _ _ _ _ _ HGp (steps_snoc _ _ _ _ a HSt) HIn) as (code' & info & _ & B2 & _).
        apply in_app_or in B2. destruct B2 as [B2|[B2|[]]]; [|discriminate].
        assert (HP : In (Ev (OFindSession code') (Some z, None)) (all_events (before ++ Thread past (Vis (ODisable z) k) :: after))).
        { unfold all_events. rewrite flat_map_app. apply in_or_app. right. simpl. apply in_or_app. auto. }
        pose proof (seen_psteps W ok sess auth tok genuine L P _ _ HR _ _ eq_refl HO) as HSeen. cbn [snd] in HSeen.
        pose proof (proj2 HSeen _ _ HP) as Ez'. assert (code' = code_) as -> by congruence. exact HP.
      + intros z Hz. apply events_more in Hz. destruct Hz as [Hz|Hz]; [auto|].
        pose proof (an_session _ _ _ _ _ A _ _ _ _ _ O1 K1 (wev_eq W _ _ _ _ _ HW (eq_sym Hz))). congruence.
  Qed.

  (** A code nobody has stored yet. *)
  Definition unknown (c : S * list (thread unit)) : Prop :=
    sess (fst c) code_ = None /\ forall z, ~ In (Ev (OFindSession code_) (Some z, None)) (all_events (snd c)).
  Lemma unknown_step s s' before past o (k : ans o -> prog unit) x after : ok s -> W s o x s' -> stores code_ o = false ->
    unknown (s, before ++ Thread past (Vis o k) :: after)%list -> unknown (s', before ++ Thread (past ++ [Ev o x]) (k x) :: after)%list.
  Proof.
    intros HO1 HW Ho [U1 U2]. cbn [fst snd] in *. split; cbn [fst snd].
    - destruct (sess s' code_) as [y|] eqn:Ey; [|reflexivity]. exfalso.
      destruct (ll_stored _ _ _ _ L _ _ _ _ _ _ HO1 HW Ey) as [X|(i & z & X & Ez & _)]; [congruence|].
      apply (f_equal ev_op) in X. simpl in X. subst o. simpl in Ho. rewrite Ez in Ho. rewrite String.eqb_refl in Ho. discriminate.
    - intros z Hz. apply events_more in Hz. destruct Hz as [Hz|Hz]; [exact (U2 _ Hz)|].
      pose proof (ll_find _ _ _ _ L _ _ _ _ HO1 (wev_eq W _ _ _ _ _ HW (eq_sym Hz))). congruence.
  Qed.
  Lemma view_unknown c tr c' : view c tr c' -> reach c -> (forall e, In e tr -> stores code_ (ev_op e) = false) -> unknown c -> unknown c'.
  Proof.
    induction 1 as [c|c1 e c2 tr c3 H1 H2 IH|c1 c2 tr c3 H1 H2 IH]; intros HR HH HU; [exact HU| |].
    - apply IH; [exact (view_reach _ _ _ HR (view_mine _ _ _ _ _ H1 (view_nil _)))|intros; apply HH; simpl; auto|].
      pose proof (reach_ok _ HR) as O1. pose proof (HH _ (or_introl eq_refl)) as Ho.
      destruct H1. cbn [fst ev_op] in *. eapply unknown_step; eauto.
    - apply IH; [exact (view_reach _ _ _ HR (view_other _ _ _ _ H1 (view_nil _)))|exact HH|].
      pose proof (reach_ok _ HR) as O1. destruct H1. cbn [fst] in *. eapply unknown_step; eauto.
  Qed.

  (** An authorization was looked up or made, then a session was stored for it. *)
  Lemma view_stored c t1 e1 t2 i y t3 c' :
    view c (t1 ++ e1 :: t2 ++ Ev (OCreateSession (Some i) y) None :: t3) c' -> reach c ->
    ((exists uid ci sc, e1 = Ev (OCreateInfo uid ci sc) (Some i, None)) \/ exists uid ci, e1 = Ev (OFindInfo uid ci) (Some i, None)) ->
    ai_client i = cid -> s_code y = code_ -> unknown c ->
    (forall e, In e (t1 ++ t2) -> stores code_ (ev_op e) = false) ->
    (forall e, In e t2 -> makes_info (ev_op e) = false) -> (forall e, In e t3 -> leaves code_ (ev_op e) = true) ->
    exists x, session_on code_ x i c' /\ as_auth_id x = ai_id i /\ as_redirect x = s_redirect y /\ as_verifier x = s_verifier y.
  Proof.
    intros HV HR He Hc Hy HU HN HH HL.
    destruct (view_split _ _ _ _ HV) as (c1 & V1 & V2). pose proof (view_reach _ _ _ HR V1) as R1.
    pose proof (view_unknown _ _ _ V1 HR (fun e Hi => HN e (in_or_app _ _ _ (or_introl Hi))) HU) as U1.
    destruct (view_one _ _ _ _ V2) as (c2 & c3 & V3 & M1 & V4). pose proof (view_reach _ _ _ R1 V3) as R2.
    pose proof (view_unknown _ _ _ V3 R1 (fun e (Hi : In e []) => match Hi with end) U1) as U2.
    pose proof (reach_ok _ R2) as O2. destruct (mine_world _ _ _ M1) as (o & x & Ee & HW).
    pose proof (view_reach _ _ _ R2 (view_mine _ _ _ _ _ M1 (view_nil _))) as R3.
    assert (U3 : unknown c3).
    { eapply view_unknown; [exact (view_mine _ _ _ _ _ M1 (view_nil _))|exact R2| |exact U2].
      intros e [<-|[]]. destruct He as [(uid & ci & sc & ->)|(uid & ci & ->)]; reflexivity. }
    assert (HA : auth (fst c3) (ai_id i) = Some i).
    { destruct He as [(uid & ci & sc & ->)|(uid & ci & ->)].
      - exact (proj1 (ll_create _ _ _ _ L _ _ _ _ _ _ O2 (wev_eq W _ _ _ _ _ HW (eq_sym Ee)))).
      - pose proof (wev_eq W _ _ _ _ _ HW (eq_sym Ee)) as HW'.
        apply (reads_keep W ok sess auth tok genuine P _ _ _ _ O2 HW'); [reflexivity|].
        exact (proj1 (ll_info _ _ _ _ L _ _ _ _ _ O2 HW')). }
    destruct (view_split _ _ _ _ V4) as (c4 & V5 & V6). pose proof (view_reach _ _ _ R3 V5) as R4.
    pose proof (view_auth _ _ _ V5 R3 HH _ _ HA Hc) as K1.
    pose proof (view_unknown _ _ _ V5 R3 (fun e Hi => HN e (in_or_app _ _ _ (or_intror Hi))) U3) as U4.
    destruct (view_one _ _ _ _ V6) as (c5 & c6 & V7 & M2 & V8). pose proof (view_reach _ _ _ R4 V7) as R5.
    destruct (view_keep _ _ _ V7 R4 (fun e (Hi : In e []) => match Hi with end) _ _ K1 Hc) as [K2 _].
    pose proof (view_unknown _ _ _ V7 R4 (fun e (Hi : In e []) => match Hi with end) U4) as U5.
    pose proof (reach_ok _ R5) as O5. pose proof (view_reach _ _ _ R5 (view_mine _ _ _ _ _ M2 (view_nil _))) as R6.
    remember (Ev (OCreateSession (Some i) y) None) as e5 eqn:E2 in M2.
    destruct M2 as [s s' before past o' k x' after Em HW5]. cbn [fst snd] in *.
    pose proof (wev_eq W _ _ _ _ _ HW5 E2) as HW'.
    destruct (an_store _ _ _ _ _ A _ _ _ _ O5 HW') as (z & Z1 & Z2 & Z3 & Z4). rewrite Hy in Z1.
    exists z. split; [|auto]. eapply (view_session _ _ _ _ _ V8 R6 HL Hc). split; [exact Z1|]. cbn [fst snd]. split.
    - rewrite Z2. destruct (sp_info _ _ _ _ _ _ P _ _ _ _ _ _ O5 HW' K2) as [H|(u & ci & sc & j & X & _)]; [exact H|discriminate].
    - intros z' Hz. apply events_more in Hz. destruct Hz as [Hz|Hz]; [destruct (proj2 U5 _ Hz)|].
      rewrite E2 in Hz. discriminate Hz.
  Qed.
End View.
