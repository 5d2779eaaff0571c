(** * Codes on record can be redeemed. *)
From Coq Require Import Lia.
From Verif Require Import Hoare WpTac Core World Spec TokenSpec OAuthError Assertion Grants TokenEndpoint GrantFacts TokenFacts
  TokenProofs LogFacts TokenMore TokenComplete ResourceProtector ResourceSpec ResourceFacts AuthzResponse AuthzEndpoint AuthzSpec
  AuthzProofs AuthzMore SysSpec SysFacts SysTrace JsonParse JsonFacts TestStore StoreFacts TraceSpec TraceFacts IsolSpec IsolFacts
  LeakFacts WorkSpec SysDemo WorkFacts.

Definition is_disable (e : event) : bool := match ev_op e with ODisable _ => true | _ => false end.
Definition code_op (o : op) : bool :=
  match o with OFindSession _ | OFindActiveInfo _ | OCreateToken _ _ | ODisable _ => true | _ => false end.

(** Disabling the session comes last. *)
Lemma code_order_wp J r c now :
  wp (fun h o => code_op o = true -> existsb is_disable h = false) (fun _ _ => True) [] (authorization_code J r c now).
Proof.
  unfold authorization_code, dcheck, echeck, code_id_token, pkce_check, refuse. wp_go; try exact I; try (intros; reflexivity); try discriminate.
Qed.

(** With good answers the exchange succeeds. *)
Lemma code_good J r c now tr y x i : exec (authorization_code J r c now) tr y ->
  code_checks r c x i -> (as_verifier x <> "" -> form_value r "code_challenge" <> "") ->
  (has_word (ai_scope i) "openid" -> can_sign J c) ->
  (forall a, In (Ev (OFindSession (form_value r "code")) a) tr -> a = (Some x, None)) ->
  (forall a, In (Ev (OFindActiveInfo (as_auth_id x)) a) tr -> a = (Some i, None)) ->
  (forall a, In (Ev (OCreateToken (Some i) true) a) tr -> exists k, a = (Some k, None)) ->
  (forall a, In (Ev (ODisable x) a) tr -> a = None) ->
  exists rs, y = Done (inl rs).
Proof.
  intros He (H1 & H2 & H3 & H4 & H5) HC HS A1 A2 A3 A4. revert He. unfold authorization_code.
  destruct (form_value r "redirect_uri" =s? "") eqn:E1; sdestruct; [congruence|].
  destruct (form_value r "code" =s? "") eqn:E2; sdestruct; [congruence|].
  intros He. apply exec_inv in He. destruct He as (a & t1 & -> & He).
  pose proof (A1 a (or_introl eq_refl)) as ->. cbn [dcheck bind] in He.
  apply exec_inv in He. destruct He as (a & t2 & -> & He).
  pose proof (A2 a (or_intror (or_introl eq_refl))) as ->. cbn [dcheck bind] in He.
  assert (E3 : (ai_client i =s? c_id c) = true) by (rewrite H3; apply seqb_eq; reflexivity).
  assert (E4 : (as_redirect x =s? form_value r "redirect_uri") = true) by (apply seqb_eq; exact H4).
  rewrite E3, E4 in He. cbn [negb] in He. rewrite (pkce_check_passes r c (as_verifier x)) in He.
  2: { destruct (as_verifier x =s? "") eqn:E; sdestruct; auto. }
  cbn [bind] in He. apply exec_inv in He. destruct He as (a & t3 & -> & He).
  destruct (A3 a) as [k ->]; [simpl; auto|]. cbn [dcheck bind] in He.
  apply exec_inv in He. destruct He as (a & t4 & -> & He).
  pose proof (A4 a) as E. rewrite E in He by (simpl; auto). clear E. cbn [echeck bind] in He.
  unfold code_id_token in He. destruct (include_openid (ai_scope i)) eqn:EO.
  - apply exec_inv in He. destruct He as ([] & t5 & -> & He). cbn [bind] in He.
    apply exec_inv in He. destruct He as (iss & t6 & -> & He). cbn [bind] in He.
    assert (HW : has_word (ai_scope i) "openid") by (apply include_word; exact EO).
    destruct (HS HW) as (S1 & S2 & _).
    destruct (IdToken.gen J (c_alg c) (c_key c) (c_kid c) iss (ai_client i) (ai_subject i) (as_nonce x) (as_idt_expires x) (as_auth_time x) now) as [idt|] eqn:EG.
    + apply exec_inv in He. destruct He as [_ ->]. eauto.
    + exfalso. unfold IdToken.gen, IdToken.raw_gen in EG. rewrite S1 in EG. exact (S2 _ _ EG).
  - apply exec_inv in He. destruct He as [_ ->]. eauto.
Qed.

Lemma code_order J te r tr x t1 o a t2 : registered te (form_value r "grant_type") (authorization_code J) ->
  exec (token_handler J te r) tr x -> tr = (t1 ++ Ev o a :: t2)%list -> code_op o = true -> existsb is_disable t1 = false.
Proof.
  intros HR He E Ho. assert (Hg : grant_op o = true) by (destruct o; try discriminate Ho; reflexivity).
  destruct (granted_event _ _ _ _ _ _ _ _ _ He E Hg) as (h & c & now & th & z & t & t' & H1 & (ta & HA & Ht1) & H3 & H4).
  assert (h = authorization_code J) as -> by (eapply registered_fun; eauto).
  pose proof (exec_guard _ _ _ _ _ _ _ _ _ (code_order_wp J r c now) H3 H4 Ho) as HD. cbn [app] in HD.
  subst t1. rewrite existsb_app. cbn [existsb is_disable ev_op orb]. rewrite HD, orb_false_r.
  destruct (existsb is_disable ta) eqn:EE; [|reflexivity]. apply existsb_exists in EE. destruct EE as ([o' a'] & HI & Hd).
  destruct (authenticated_ops _ _ _ _ _ HA) as (_ & _ & HO & _). apply HO in HI. unfold is_disable in Hd. simpl in *.
  destruct o'; discriminate.
Qed.

Section Redeem.
  Context {S : Type} (W : rworld S) (ok : S -> Prop) (sess : S -> string -> option authsession)
          (auth : S -> Z -> option authinfo) (tok : S -> string -> option oauthtoken) (genuine : oauthtoken -> Prop).
  Hypothesis L : linked_store W ok sess auth.
  Hypothesis P : separate_store W ok sess auth tok genuine.
  Hypothesis A : answering_store W ok sess auth tok.

  Definition code_answers (r : request) (x : authsession) (i : authinfo) (past : list event) : Prop :=
    (forall a, In (Ev (OFindSession (form_value r "code")) a) past -> a = (Some x, None)) /\
    (forall a, In (Ev (OFindActiveInfo (as_auth_id x)) a) past -> a = (Some i, None)) /\
    (forall a, In (Ev (OCreateToken (Some i) true) a) past -> exists k, a = (Some k, None)) /\
    (forall a, In (Ev (ODisable x) a) past -> a = None).

  Lemma code_kept s0 progs m J te r x i :
    ok s0 -> Forall goidc progs -> nth_error progs m = Some (token_handler J te r) ->
    registered te (form_value r "grant_type") (authorization_code J) ->
    forall c1 c2, psteps W c1 c2 -> psteps W (s0, map start progs) c1 ->
    sess (fst c1) (form_value r "code") = Some x -> auth (fst c1) (as_auth_id x) = Some i ->
    (forall z, In (Ev (OFindSession (form_value r "code")) (Some z, None)) (all_events (snd c1)) -> z = x) ->
    nth_error (snd c1) m = Some (start (token_handler J te r)) ->
    undisturbed (ai_client i) m progs (snd c1) (snd c2) ->
    (forall e, since (snd c1) (snd c2) e -> stores (form_value r "code") (ev_op e) = false) ->
    exists th, nth_error (snd c2) m = Some th /\ code_answers r x i (th_past th) /\
      (existsb is_disable (th_past th) = false ->
        sess (fst c2) (form_value r "code") = Some x /\ auth (fst c2) (as_auth_id x) = Some i /\
        forall z, In (Ev (OFindSession (form_value r "code")) (Some z, None)) (all_events (snd c2)) -> z = x).
  Proof.
    set (code := form_value r "code").
    intros HO HG Hm HReg c1 c2 H. induction H as [c|c1 c2 c3 H1 IH H2]; intros H0 Hx Hi Hz Hs HU HN.
    - eexists. split; [exact Hs|]. split; [|auto]. repeat split; intros a [].
    - pose proof (psteps_trans _ _ _ _ H0 H1) as H01.
      destruct (told_psteps W ok sess auth L _ _ H01 _ _ eq_refl HO) as (I1 & I2 & _).
      pose proof (seen_psteps W ok sess auth tok genuine L P _ _ H01 _ _ eq_refl HO) as HSeen.
      destruct H2 as [s s' before past o kk a after HW]. cbn [fst snd] in *.
      pose proof I2 as F. apply Forall2_app_inv_r in F. destruct F as (l1 & l2 & F1 & F2 & Hl).
      inversion F2 as [|p th l2' after' HSt HF]; subst progs l2 th after'. simpl in HSt.
      assert (Hp : nth_error (l1 ++ p :: l2')%list (length before) = Some p) by (rewrite <- (forall2_len _ _ _ F1); apply nth_mid).
      destruct c1 as [s1 ths1]. cbn [fst snd] in *.
      destruct (undisturbed_back W _ _ _ _ _ _ _ _ _ _ _ _ _ H1 HU Hp) as [HU' HNA].
      assert (Hsnew : since ths1 (before ++ Thread (past ++ [Ev o a]) (kk a) :: after) (Ev o a)).
      { destruct (psteps_grow W _ _ H1) as [HL HGr]. cbn [snd] in *.
        destruct (nth_error ths1 (length before)) as [th1|] eqn:E1.
        - destruct (HGr _ _ E1) as (th2 & t & E2 & E3). rewrite nth_mid in E2. injection E2 as <-. simpl in E3.
          exists (length before), th1. eexists. exists (t ++ [Ev o a])%list. split; [exact E1|]. split; [apply nth_mid|]. simpl.
          rewrite E3, app_assoc. split; [reflexivity|]. apply in_or_app. simpl. auto.
        - exfalso. apply nth_error_None in E1. rewrite <- HL, app_length in E1. simpl in E1. lia. }
      assert (HN' : forall e, since ths1 (before ++ Thread past (Vis o kk) :: after) e -> stores code (ev_op e) = false).
      { intros e (n & th1 & th2 & t & E1 & E2 & E3 & E4). apply HN. destruct (Nat.eq_dec n (length before)) as [->|Hne].
        - rewrite nth_mid in E2. injection E2 as <-. simpl in E3.
          exists (length before), th1. eexists. exists (t ++ [Ev o a])%list. split; [exact E1|]. split; [apply nth_mid|]. simpl.
          rewrite E3, app_assoc. split; [reflexivity|]. apply in_or_app. auto.
        - exists n, th1, th2, t. split; [exact E1|]. split; [|auto]. rewrite <- E2. apply nth_other. exact Hne. }
      assert (Hst : stores code o = false) by exact (HN _ Hsnew).
      destruct (IH H0 Hx Hi Hz Hs HU' HN') as (th & J1 & (A1 & A2 & A3 & A4) & JK). clear IH.
      set (old_evs := all_events (before ++ Thread past (Vis o kk) :: after)) in *.
      assert (HE : forall e, In e (all_events (before ++ Thread (past ++ [Ev o a]) (kk a) :: after)) -> In e old_evs \/ e = Ev o a).
      { intros e. unfold old_evs, all_events. rewrite !flat_map_app. cbn [flat_map th_past]. rewrite !in_app_iff. simpl. intuition. }
      assert (HP : forall e, In e past -> In e old_evs).
      { intros e He. unfold old_evs, all_events. rewrite flat_map_app. apply in_or_app. right. simpl. apply in_or_app. auto. }
      destruct (Nat.eq_dec (length before) m) as [E|E].
      + rewrite <- E in Hm, J1 |- *. rewrite Hp in Hm. injection Hm as ->.
        rewrite nth_mid in J1. injection J1 as <-. simpl in A1, A2, A3, A4, JK.
        eexists. split; [apply nth_mid|]. simpl.
        pose proof (steps_snoc _ _ _ _ a HSt) as HSt'. destruct (steps_prefix _ _ _ HSt') as (t & y & He).
        assert (Et : ((past ++ [Ev o a]) ++ t = past ++ Ev o a :: t)%list) by (rewrite <- app_assoc; reflexivity).
        assert (HC : code_op o = true -> sess s code = Some x /\ auth s (as_auth_id x) = Some i /\
                     forall z, In (Ev (OFindSession code) (Some z, None)) old_evs -> z = x).
        { intros Ho. apply JK. exact (code_order _ _ _ _ _ _ _ _ _ HReg He Et Ho). }
        split.
        * unfold code_answers. fold code. repeat split; intros b Hb; apply in_app_or in Hb; destruct Hb as [Hb|[Hb|[]]]; auto.
          -- pose proof (f_equal ev_op Hb) as Eo. simpl in Eo. destruct HC as (C1 & _); [rewrite Eo; reflexivity|].
             exact (an_session _ _ _ _ _ A _ _ _ _ _ I1 C1 (wev_eq W _ _ _ _ _ HW Hb)).
          -- pose proof (f_equal ev_op Hb) as Eo. simpl in Eo. destruct HC as (_ & C1 & _); [rewrite Eo; reflexivity|].
             exact (an_active _ _ _ _ _ A _ _ _ _ _ I1 C1 (wev_eq W _ _ _ _ _ HW Hb)).
          -- destruct (an_create _ _ _ _ _ A _ _ _ _ _ I1 (wev_eq W _ _ _ _ _ HW Hb)) as (k & -> & _). eauto.
          -- pose proof (f_equal ev_op Hb) as Eo. simpl in Eo. destruct HC as (C1 & _ & _); [rewrite Eo; reflexivity|].
             assert (Ex : as_code x = code).
             { destruct (code_exchange_guarded _ _ _ _ _ _ _ _ _ HReg He Et) as (c & now & th & x' & i' & rest & (ta & _ & T2) & _ & T4 & T5);
                 [rewrite Eo; reflexivity|rewrite Eo; reflexivity|].
               destruct T5 as [[T5 _]|[T5 _]]; rewrite Eo in T5; [discriminate|]. injection T5 as <-.
               apply (proj2 HSeen). apply HP. rewrite T2. apply in_or_app. right. right.
               assert (X : In (Ev (OFindSession code) (Some x, None)) (data_calls th)) by (rewrite T4; unfold found_calls; simpl; auto).
               apply filter_In in X. exact (proj1 X). }
             rewrite <- Ex in C1. exact (an_disable _ _ _ _ _ A _ _ _ _ I1 C1 (wev_eq W _ _ _ _ _ HW Hb)).
        * intros Hd. rewrite existsb_app in Hd. apply orb_false_iff in Hd. destruct Hd as [Hd1 Hd2].
          simpl in Hd2. rewrite orb_false_r in Hd2. destruct (JK Hd1) as (K1 & K2 & K3). split; [|split].
          -- destruct (sp_session _ _ _ _ _ _ P _ _ _ _ _ _ I1 HW K1) as [X|[X|(z & X & _)]]; [exact X|congruence|].
             unfold is_disable in Hd2. simpl in Hd2. rewrite X in Hd2. discriminate.
          -- destruct (sp_info _ _ _ _ _ _ P _ _ _ _ _ _ I1 HW K2) as [X|(u & c & sc & j & X & _)]; [exact X|].
             apply (f_equal ev_op) in X. simpl in X. exfalso.
             destruct (code_exchange_guarded _ _ _ _ _ _ _ _ _ HReg He Et) as (c' & now & th & x' & i' & rest & _ & _ & _ & T5);
               [rewrite X; reflexivity|rewrite X; reflexivity|].
             destruct T5 as [[T5 _]|[T5 _]]; rewrite X in T5; discriminate.
          -- intros z Hz'. apply HE in Hz'. destruct Hz' as [Hz'|Hz']; [auto|].
             pose proof (an_session _ _ _ _ _ A _ _ _ _ _ I1 K1 (wev_eq W _ _ _ _ _ HW (eq_sym Hz'))). congruence.
      + exists th. split; [rewrite <- J1; apply nth_other; auto|]. split; [exact (conj A1 (conj A2 (conj A3 A4)))|].
        intros Hd. destruct (JK Hd) as (K1 & K2 & K3).
        destruct (quiet_step W ok sess auth tok genuine L P _ _ _ _ _ _ _ _ _ _ _ _ H01 HO HG HW Hp (HNA E) _ _ K2 eq_refl) as (Q1 & _ & Q3).
        split; [|split; [exact Q1|]].
        * destruct (sp_session _ _ _ _ _ _ P _ _ _ _ _ _ I1 HW K1) as [X|[X|(z & -> & Ez)]]; [exact X|congruence|].
          exfalso. apply (Q3 z a eq_refl). f_equal. apply K3.
          assert (HGp : goidc p). { apply Forall_app in HG. destruct HG as [_ HG]. inversion HG. assumption. }
          assert (HIn : In (Ev (ODisable z) a) (past ++ [Ev (ODisable z) a])) by (apply in_or_app; simpl; auto).
          destruct (disable_owner _ _ _ _ _ HGp (steps_snoc _ _ _ _ a HSt) HIn) as (code' & info & _ & B2 & _).
          apply in_app_or in B2. destruct B2 as [B2|[B2|[]]]; [|discriminate].
          pose proof (proj2 HSeen _ _ (HP _ B2)) as Ez'. assert (code' = code) as -> by congruence. apply HP, B2.
        * intros z Hz'. apply HE in Hz'. destruct Hz' as [Hz'|Hz']; [auto|].
          pose proof (an_session _ _ _ _ _ A _ _ _ _ _ I1 K1 (wev_eq W _ _ _ _ _ HW (eq_sym Hz'))). congruence.
  Qed.
End Redeem.

(** ** Codes and tokens sent to the client are on record *)
Section Sent.
  Context {S : Type} (W : rworld S) (ok : S -> Prop) (sess : S -> string -> option authsession)
          (auth : S -> Z -> option authinfo) (tok : S -> string -> option oauthtoken) (genuine : oauthtoken -> Prop).
  Hypothesis L : linked_store W ok sess auth.
  Hypothesis P : separate_store W ok sess auth tok genuine.
  Hypothesis A : answering_store W ok sess auth tok.

  Lemma reads_run s (p : prog unit) tr q s' : rsteps W s p tr q s' -> ok s ->
    (forall e, In e tr -> is_update (ev_op e) = false) ->
    ok s' /\ (forall id i, auth s id = Some i -> auth s' id = Some i) /\
    (forall t k, tok s t = Some k -> tok s' t = Some k) /\ (forall code x, sess s code = Some x -> sess s' code = Some x).
  Proof.
    induction 1 as [s p|s o k x s1 tr q s2 HW HR IH]; intros HO HH; [auto|].
    pose proof (ll_ok _ _ _ _ L _ _ _ _ HO HW) as HO1.
    destruct (reads_keep W ok sess auth tok genuine P _ _ _ _ HO HW (HH _ (or_introl eq_refl))) as (K1 & K2 & K3).
    destruct (IH HO1) as (I1 & I2 & I3 & I4). { intros e He. apply HH. simpl. auto. }
    split; [exact I1|]. split; [auto|]. split; auto.
  Qed.

  Lemma sent_reads mode uri params ta : sent mode uri params ta -> forall e, In e ta -> is_update (ev_op e) = false.
  Proof. intros H e He. destruct H; simpl in He; decompose [or] He; subst; try reflexivity; contradiction. Qed.
  Lemma id_reads E pol info req clnt at_ access code b idt t : id_made E pol info req clnt at_ access code b idt t ->
    forall e, In e t -> is_update (ev_op e) = false.
  Proof. intros H e He. destruct H; simpl in He; decompose [or] He; subst; try reflexivity; contradiction. Qed.

  Definition code_kept_as (req : arequest) (i : authinfo) (s : S) (code : string) : Prop :=
    exists x, sess s code = Some x /\ as_auth_id x = ai_id i /\ auth s (ai_id i) = Some i /\
      as_redirect x = rq_redirect req /\ as_verifier x = rq_verifier req.
  Definition token_kept_as (i : authinfo) (s : S) (t : string) : Prop :=
    exists k, ot_access k = t /\ tok s t = Some k /\ ot_auth_id k = ai_id i /\ auth s (ai_id i) = Some i.

  Lemma session_step_sent s (p : prog unit) pol i req code at_ rest q s' :
    rsteps W s p (session_stored pol (Some i) req code at_ ++ rest) q s' -> ok s -> auth s (ai_id i) = Some i ->
    exists s1 p1, ok s1 /\ code_kept_as req i s1 code /\ rsteps W s1 p1 rest q s'.
  Proof.
    intros HR HO HA. destruct (rsteps_split W _ _ _ _ _ _ HR) as (q1 & s1 & R1 & R2). exists s1, q1.
    unfold session_stored in R1.
    change [Ev OCreateCode (Some code); Ev OAuthTime (Some at_); Ev (OCreateSession (Some i) (ASession (rq_redirect req) code (p_session_expires pol) (rq_verifier req) (rq_nonce req) at_)) None]%list
      with ([Ev OCreateCode (Some code); Ev OAuthTime (Some at_)] ++ [Ev (OCreateSession (Some i) (ASession (rq_redirect req) code (p_session_expires pol) (rq_verifier req) (rq_nonce req) at_)) None])%list in R1.
    destruct (rsteps_split W _ _ _ _ _ _ R1) as (q2 & s2 & R3 & R4).
    destruct (reads_run _ _ _ _ _ R3 HO) as (HO2 & K1 & _). { intros e [<-|[<-|[]]]; reflexivity. }
    destruct (one_step W _ _ _ _ _ _ R4) as (o & x & k & s3 & E & HW & R5).
    pose proof (wev_eq W _ _ _ _ _ HW (eq_sym E)) as HW'.
    assert (s3 = s1) as -> by (inversion R5; reflexivity).
    split; [exact (ll_ok _ _ _ _ L _ _ _ _ HO2 HW')|]. split; [|exact R2].
    destruct (an_store _ _ _ _ _ A _ _ _ _ HO2 HW') as (y & Y1 & Y2 & Y3 & Y4). simpl in *.
    exists y. split; [exact Y1|]. split; [exact Y2|]. split; [|auto].
    destruct (sp_info _ _ _ _ _ _ P _ _ _ _ _ _ HO2 HW' (K1 _ _ HA)) as [H|(u & c & sc & j & X & _)]; [exact H|discriminate].
  Qed.

  Lemma token_step_sent s (p : prog unit) i b t tt_ rest q s' :
    rsteps W s p (tt_ ++ rest) q s' -> token_made (Some i) b t tt_ -> ok s -> auth s (ai_id i) = Some i ->
    exists s1 p1, ok s1 /\ auth s1 (ai_id i) = Some i /\ (forall k, t = Some k -> token_kept_as i s1 (ot_access k)) /\
      (forall code x, sess s code = Some x -> sess s1 code = Some x) /\ rsteps W s1 p1 rest q s'.
  Proof.
    intros HR HM HO HA. destruct HM as [|k].
    - exists s, p. split; [exact HO|]. split; [exact HA|]. split; [discriminate|]. auto.
    - cbn [app] in HR. destruct (one_step W _ _ _ _ _ _ HR) as (o & x & kk & s1 & E & HW & R1).
      pose proof (wev_eq W _ _ _ _ _ HW (eq_sym E)) as HW'.
      assert (HA1 : auth s1 (ai_id i) = Some i).
      { destruct (sp_info _ _ _ _ _ _ P _ _ _ _ _ _ HO HW' HA) as [H|(u & c & sc & j & X & _)]; [exact H|discriminate]. }
      exists s1, (kk x). split; [exact (ll_ok _ _ _ _ L _ _ _ _ HO HW')|]. split; [exact HA1|]. split; [|split; [|exact R1]].
      + intros k' Ek. injection Ek as <-. destruct (an_create _ _ _ _ _ A _ _ _ _ _ HO HW') as (k' & Ek & T1 & T2).
        injection Ek as <-. exists k. auto.
      + intros code y Hy. destruct (sp_session _ _ _ _ _ _ P _ _ _ _ _ _ HO HW' Hy) as [H|[H|(z & X & _)]]; [exact H| |]; discriminate.
  Qed.

  Lemma completed_given E pol i req tc s (p : prog unit) q s' :
    rsteps W s p tc q s' -> completed E pol (Some i) req tc -> ok s -> auth s (ai_id i) = Some i ->
    exists params, answered (rq_mode req) (rq_redirect req) params tc /\
      (forall code, In ("code", code) params -> code_kept_as req i s' code) /\
      (forall t, In ("access_token", t) params -> token_kept_as i s' t).
  Proof.
    intros HR HC HO HA.
    assert (HGiven : forall k, In ("code", Some k) [("state", given (rq_state req)); ("scope", given (rq_scope req))] -> False).
    { intros k [X|[X|[]]]; discriminate. }
    destruct HC as [f code at_ params ta Hf Ht [_ HH] HS|f clnt t idt at_ tt_ ti params ta Hf Ht HM HI [_ HH] HS
                   |f clnt t idt code at_ tt_ ti params ta Hf Ht HM HI [_ HH] HS].
    - exists params. split. { exists (session_stored pol (Some i) req code at_), ta. auto. }
      destruct (session_step_sent _ _ _ _ _ _ _ _ _ _ HR HO HA) as (s1 & p1 & HO1 & (x & X1 & X2 & X3 & X4) & R1).
      destruct (reads_run _ _ _ _ _ R1 HO1 (sent_reads _ _ _ _ HS)) as (_ & K1 & K2 & K3). split.
      + intros code' Hc. apply HH in Hc. destruct Hc as [Hc|[Hc|[]]]; [|discriminate]. injection Hc as <-.
        exists x. auto.
      + intros t Hc. apply HH in Hc. destruct Hc as [Hc|[Hc|[]]]; discriminate.
    - exists params. split.
      { exists ([Ev (OFindClient (rq_client req)) (clnt, None)] ++ tt_ ++ [Ev OAuthTime (Some at_)] ++ ti)%list, ta.
        split; [rewrite <- !app_assoc; reflexivity|]. split; [|exact HS].
        destruct HM, HI; reflexivity. }
      cbn [app] in HR. destruct (one_step W _ _ _ _ _ _ HR) as (o & x & kk & s1 & E1 & HW & R1).
      pose proof (wev_eq W _ _ _ _ _ HW (eq_sym E1)) as HW'. pose proof (ll_ok _ _ _ _ L _ _ _ _ HO HW') as HO1.
      destruct (reads_keep W ok sess auth tok genuine P _ _ _ _ HO HW' eq_refl) as (K1 & _).
      destruct (token_step_sent _ _ _ _ _ _ _ _ _ R1 HM HO1 (K1 _ _ HA)) as (s2 & p2 & HO2 & HA2 & HT & _ & R2).
      destruct (reads_run _ _ _ _ _ R2 HO2) as (_ & K4 & K5 & _).
      { intros e [<-|He]; [reflexivity|]. apply in_app_or in He. destruct He; [eapply id_reads; eauto|eapply sent_reads; eauto]. }
      split.
      + intros code Hc. apply HH in Hc. exfalso. rewrite !in_app_iff in Hc. destruct Hc as [Hc|[Hc|[Hc|[]]]]; [eauto| |discriminate].
        destruct t; simpl in Hc; [|exact Hc]. destruct Hc as [Hc|[Hc|[Hc|[]]]]; discriminate.
      + intros t' Hc. apply HH in Hc. rewrite !in_app_iff in Hc. destruct Hc as [[Hc|[Hc|[]]]|[Hc|[Hc|[]]]]; try discriminate.
        destruct t as [k|]; simpl in Hc; [|destruct Hc]. destruct Hc as [Hc|[Hc|[Hc|[]]]]; try discriminate.
        injection Hc as <-. destruct (HT _ eq_refl) as (k' & Y1 & Y2 & Y3 & Y4). exists k'. auto.
    - exists params. split.
      { exists (session_stored pol (Some i) req code at_ ++ [Ev (OFindClient (rq_client req)) (clnt, None)] ++ tt_ ++ ti)%list, ta.
        split; [rewrite <- !app_assoc; reflexivity|]. split; [|exact HS]. destruct HM, HI; reflexivity. }
      destruct (session_step_sent _ _ _ _ _ _ _ _ _ _ HR HO HA) as (s1 & p1 & HO1 & (x & X1 & X2 & X3 & X4) & R1).
      cbn [app] in R1. destruct (one_step W _ _ _ _ _ _ R1) as (o & y & kk & s2 & E1 & HW & R2).
      pose proof (wev_eq W _ _ _ _ _ HW (eq_sym E1)) as HW'. pose proof (ll_ok _ _ _ _ L _ _ _ _ HO1 HW') as HO2.
      destruct (reads_keep W ok sess auth tok genuine P _ _ _ _ HO1 HW' eq_refl) as (K1 & _ & K3).
      destruct (token_step_sent _ _ _ _ _ _ _ _ _ R2 HM HO2 (K1 _ _ X3)) as (s3 & p3 & HO3 & HA3 & HT & HS3 & R3).
      destruct (reads_run _ _ _ _ _ R3 HO3) as (_ & K4 & K5 & K6).
      { intros e He. apply in_app_or in He. destruct He; [eapply id_reads; eauto|eapply sent_reads; eauto]. }
      split.
      + intros code' Hc. apply HH in Hc. rewrite !in_app_iff in Hc. destruct Hc as [[Hc|[Hc|[Hc|[]]]]|[Hc|[Hc|[]]]]; try discriminate.
        * injection Hc as <-. exists x. auto 6.
        * exfalso. destruct t; simpl in Hc; [|exact Hc]. destruct Hc as [Hc|[Hc|[Hc|[]]]]; discriminate.
      + intros t' Hc. apply HH in Hc. rewrite !in_app_iff in Hc. destruct Hc as [[Hc|[Hc|[Hc|[]]]]|[Hc|[Hc|[]]]]; try discriminate.
        destruct t as [k|]; simpl in Hc; [|destruct Hc]. destruct Hc as [Hc|[Hc|[Hc|[]]]]; try discriminate.
        injection Hc as <-. destruct (HT _ eq_refl) as (k' & Y1 & Y2 & Y3 & Y4). exists k'. auto.
  Qed.

  Lemma complete_given E pol s tr s' : rsteps W s (done (complete_request E pol)) tr (Ret tt) s' ->
    exec (complete_request E pol) tr (Done true) -> ok s ->
    exists req i params, recorded req (Some i) tr /\ ai_client i = rq_client req /\
      answered (rq_mode req) (rq_redirect req) params tr /\
      (forall code, In ("code", code) params -> code_kept_as req i s' code) /\
      (forall t, In ("access_token", t) params -> token_kept_as i s' t).
  Proof.
    intros HR He HO. destruct (wp_exec _ _ _ _ _ (complete_request_wp E pol) He) as (req & info & tc & HRec & E3 & HC).
    pose proof HRec as (uid & rest & ->). cbn [skipn] in E3. subst tc.
    change (Ev OContinue (Some (Some req)) :: Ev OLoginUser (Some uid) :: Ev (OCreateInfo uid (rq_client req) (rq_scope req)) (info, None) :: rest)%list
      with ([Ev OContinue (Some (Some req)); Ev OLoginUser (Some uid)] ++ Ev (OCreateInfo uid (rq_client req) (rq_scope req)) (info, None) :: rest)%list in HR.
    destruct (rsteps_split W _ _ _ _ _ _ HR) as (q1 & s1 & R1 & R2).
    destruct (reads_run _ _ _ _ _ R1 HO) as (HO1 & _). { intros e [<-|[<-|[]]]; reflexivity. }
    destruct (one_step W _ _ _ _ _ _ R2) as (o & x & k & s2 & E1 & HW & R3).
    pose proof (wev_eq W _ _ _ _ _ HW (eq_sym E1)) as HW'. pose proof (ll_ok _ _ _ _ L _ _ _ _ HO1 HW') as HO2.
    destruct info as [i|]; [|exfalso; exact (an_info _ _ _ _ _ A _ _ _ _ _ _ HO1 HW' eq_refl)].
    destruct (ll_create _ _ _ _ L _ _ _ _ _ _ HO1 HW') as (C1 & C2 & C3).
    destruct (completed_given _ _ _ _ _ _ _ _ _ R3 HC HO2 C1) as (params & (pre & ta & G1 & G2 & G3) & G4 & G5).
    exists req, i, params. split; [exact HRec|]. split; [exact C3|]. split; [|auto].
    eexists (_ :: _ :: _ :: pre), ta. rewrite G1. split; [reflexivity|]. split; [exact G2|exact G3].
  Qed.

  (** Completing a request gives away nothing, or stores a session or makes a token. *)
  Lemma completed_gives E pol i req tc : completed E pol (Some i) req tc ->
    (exists o, In o (ops tc) /\ ((exists y, o = OCreateSession (Some i) y) \/ exists b, o = OCreateToken (Some i) b)) \/
    (exists params, answered (rq_mode req) (rq_redirect req) params tc /\
       (forall v, ~ In ("code", v) params) /\ (forall v, ~ In ("access_token", v) params)).
  Proof.
    intros HC.
    destruct HC as [f code at_ params ta Hf Ht [_ HH] HS|f clnt t idt at_ tt_ ti params ta Hf Ht HM HI [_ HH] HS
                   |f clnt t idt code at_ tt_ ti params ta Hf Ht HM HI [_ HH] HS].
    - left. eexists. split; [|left; eexists; reflexivity]. unfold ops, session_stored. rewrite map_app. apply in_or_app. left. simpl. auto.
    - inversion HM; subst.
      + right. exists params. split.
        { exists ([Ev (OFindClient (rq_client req)) (clnt, None)] ++ [] ++ [Ev OAuthTime (Some at_)] ++ ti)%list, ta.
          split; [rewrite <- !app_assoc; reflexivity|]. split; [|exact HS]. destruct HI; reflexivity. }
        split; intros v Hv; apply HH in Hv; simpl in Hv; destruct Hv as [Hv|[Hv|[Hv|[]]]]; discriminate.
      + left. exists (OCreateToken (Some i) false). split; [|right; eauto]. simpl. auto.
    - left. eexists. split; [|left; eexists; reflexivity]. unfold ops, session_stored. rewrite map_app. apply in_or_app. left. simpl. auto.
  Qed.

  Lemma completed_looks E pol i req tc uid cid a : completed E pol (Some i) req tc -> ~ In (Ev (OFindInfo uid cid) a) tc.
  Proof.
    intros HC HI. apply (in_map ev_op) in HI. simpl in HI.
    assert (HSent : forall params ta, sent (rq_mode req) (rq_redirect req) params ta -> ~ In (OFindInfo uid cid) (map ev_op ta)).
    { intros params ta HS X. destruct HS; simpl in X; decompose [or] X; try discriminate; contradiction. }
    destruct HC as [f code at_ params ta _ _ _ HS|f clnt t idt at_ tt_ ti params ta _ _ HM HId _ HS
                   |f clnt t idt code at_ tt_ ti params ta _ _ HM HId _ HS];
      rewrite ?map_app, ?in_app_iff in HI; specialize (HSent _ _ HS).
    - destruct HI as [HI|HI]; [|auto]. unfold session_stored in HI. simpl in HI. decompose [or] HI; try discriminate; contradiction.
    - assert (H1 : ~ In (OFindInfo uid cid) (map ev_op tt_)) by (destruct HM; simpl; intuition discriminate).
      assert (H2 : ~ In (OFindInfo uid cid) (map ev_op ti)) by (destruct HId; simpl; intuition discriminate).
      simpl in HI. intuition discriminate.
    - assert (H1 : ~ In (OFindInfo uid cid) (map ev_op tt_)) by (destruct HM; simpl; intuition discriminate).
      assert (H2 : ~ In (OFindInfo uid cid) (map ev_op ti)) by (destruct HId; simpl; intuition discriminate).
      unfold session_stored in HI. simpl in HI. intuition discriminate.
  Qed.

  (** Without CreateOrUpdateAuthInfo, authorizations are kept. *)
  Lemma auth_run s (p : prog unit) tr q s' : rsteps W s p tr q s' -> ok s ->
    (forall e, In e tr -> match ev_op e with OCreateInfo _ _ _ => False | _ => True end) ->
    ok s' /\ (forall id i, auth s id = Some i -> auth s' id = Some i).
  Proof.
    induction 1 as [s p|s o k x s1 tr q s2 HW HR IH]; intros HO HH; [auto|].
    pose proof (ll_ok _ _ _ _ L _ _ _ _ HO HW) as HO1.
    destruct (IH HO1) as (I1 & I2). { intros e He. apply HH. simpl. auto. }
    split; [exact I1|]. intros id i Hi. apply I2.
    destruct (sp_info _ _ _ _ _ _ P _ _ _ _ _ _ HO HW Hi) as [H|(u & c & sc & j & X & _)]; [exact H|].
    exfalso. specialize (HH _ (or_introl eq_refl)). rewrite X in HH. exact HH.
  Qed.

  Lemma handle_given E pol r s tr s' b : rsteps W s (done (handle_request E pol r)) tr (Ret tt) s' ->
    exec (handle_request E pol r) tr (Done b) -> ok s ->
    http_ops tr = [] \/
    (exists mode typ, error_sent mode (form_value r "redirect_uri") (form_value r "state") typ tr) \/
    exists c q params, approved r c tr /\ validated pol r c q /\ answered (rq_mode q) (rq_redirect q) params tr /\
      (forall code, In ("code", code) params -> exists i, ai_client i = rq_client q /\ code_kept_as q i s' code) /\
      (forall t, In ("access_token", t) params -> exists i, ai_client i = rq_client q /\ token_kept_as i s' t).
  Proof.
    intros HR He HO. pose proof (handle_handled _ _ _ _ _ He) as HH.
    destruct HH as [(n & HF) _|c q _ _ HX _|c mode typ _ HX _|c q f info pre tc HAp HV _ -> HP HC].
    - left. unfold http_ops. clear - HF.
      assert (G : forall o, In o (ops tr) -> is_http o = false).
      { intros o Ho. destruct (is_http o) eqn:EH; [|reflexivity]. exfalso.
        assert (X : In o (filter (fun o => match o with OLog _ _ _ => false | _ => true end) (ops tr)))
          by (apply filter_In; split; [exact Ho|destruct o; try reflexivity; discriminate EH]).
        rewrite HF in X. apply in_app_or in X. destruct X as [X|[X|[]]]; [|subst o; discriminate EH].
        revert X. repeat match goal with |- context [if ?d then _ else _] => destruct d end; simpl; intros X;
          decompose [or] X; subst; try discriminate EH; contradiction. }
      clear HF. induction (ops tr) as [|o l IH]; [reflexivity|]. simpl.
      rewrite (G o) by (simpl; auto). apply IH. intros; apply G; simpl; auto.
    - left. exact HX.
    - right. left. eauto.
    - right. right.
      assert (HNI : forall e, In e (pre ++ tc) -> match ev_op e with OCreateInfo _ _ _ => False | _ => True end).
      { intros e Hi. apply in_split in Hi. destruct Hi as (l1 & l2 & El). destruct e as [o a].
        assert (HPf : performs (pre ++ tc) l1 o) by (exists a, l2; exact El).
        pose proof (handle_performs _ _ _ _ _ _ _ He HPf) as HGd. destruct o; exact I || exact HGd. }
      destruct (rsteps_split W _ _ _ _ _ _ HR) as (q1 & s1 & R1 & R2).
      assert (HO1 : ok s1). { eapply (auth_run _ _ _ _ _ R1 HO). intros e Hi. apply HNI. apply in_or_app. auto. }
      destruct (completed_gives _ _ _ _ _ HC) as [(o & Ho & Hio)|(params & HAn & N1 & N2)].
      + assert (HA : auth s1 (ai_id info) = Some info /\ ai_client info = rq_client q).
        { unfold ops in Ho. apply in_map_iff in Ho. destruct Ho as ([o' a] & Eo & Hin). simpl in Eo. subst o'.
          apply in_split in Hin. destruct Hin as (l1 & l2 & El).
          assert (HPf : performs (pre ++ tc) (pre ++ l1) o) by (exists a, l2; rewrite El, <- app_assoc; reflexivity).
          pose proof (handle_performs _ _ _ _ _ _ _ He HPf) as HGd.
          assert (HM : exists c' q' , validated pol r c' q' /\ consent_on_record pol q' info (pre ++ l1)).
          { destruct Hio as [[y ->]|[bb ->]]; destruct HGd as (c' & q' & i' & _ & V' & (M1 & _) & (_ & I1 & _));
              injection I1 as <-; eauto. }
          destruct HM as (c' & q' & HV' & uid & now & (a1 & b1 & Es) & _).
          assert (HIn : In (Ev (OFindInfo uid (rq_client q')) (Some info, None)) (pre ++ l1)).
          { rewrite Es. apply in_or_app. right. simpl. auto. }
          apply in_app_or in HIn. destruct HIn as [HIn|HIn].
          2: { exfalso. apply (completed_looks _ _ _ _ _ uid (rq_client q') (Some info, None) HC). rewrite El. apply in_or_app. auto. }
          apply in_split in HIn. destruct HIn as (p1 & p2 & Ep). rewrite Ep in R1.
          destruct (rsteps_split W _ _ _ _ _ _ R1) as (q2 & s2 & R3 & R4).
          assert (HN1 : forall e, In e p1 -> match ev_op e with OCreateInfo _ _ _ => False | _ => True end)
            by (intros e Hi; apply HNI; rewrite Ep; apply in_or_app; left; apply in_or_app; auto).
          assert (HN2 : forall e, In e p2 -> match ev_op e with OCreateInfo _ _ _ => False | _ => True end)
            by (intros e Hi; apply HNI; rewrite Ep; apply in_or_app; left; apply in_or_app; simpl; auto).
          destruct (auth_run _ _ _ _ _ R3 HO HN1) as (HO2 & _).
          destruct (one_step W _ _ _ _ _ _ R4) as (o2 & x2 & k2 & s3 & E2 & HW & R5).
          pose proof (wev_eq W _ _ _ _ _ HW (eq_sym E2)) as HW'.
          destruct (ll_info _ _ _ _ L _ _ _ _ _ HO2 HW') as (F1 & F2 & F3).
          pose proof (ll_ok _ _ _ _ L _ _ _ _ HO2 HW') as HO3.
          assert (F4 : auth s3 (ai_id info) = Some info).
          { destruct (sp_info _ _ _ _ _ _ P _ _ _ _ _ _ HO2 HW' F1) as [H|(u & c2 & sc & j & X & _)]; [exact H|discriminate]. }
          destruct (auth_run _ _ _ _ _ R5 HO3 HN2) as (_ & K). split; [exact (K _ _ F4)|].
          rewrite F3, (v_client _ _ _ _ HV'), (v_client _ _ _ _ HV). reflexivity. }
        destruct HA as [HA1 HA2].
        destruct (completed_given _ _ _ _ _ _ _ _ _ R2 HC HO1 HA1) as (params & (pre2 & ta & G1 & G2 & G3) & G4 & G5).
        exists c, q, params. split; [exact HAp|]. split; [exact HV|]. split.
        { exists (pre ++ pre2)%list, ta. rewrite G1, <- app_assoc. split; [reflexivity|]. split; [|exact G3].
          unfold http_ops, ops in *. rewrite map_app, filter_app, HP, G2. reflexivity. }
        split; intros v Hv; exists info; auto.
      + exists c, q, params. split; [exact HAp|]. split; [exact HV|]. split.
        { destruct HAn as (pre2 & ta & G1 & G2 & G3). exists (pre ++ pre2)%list, ta. rewrite G1, <- app_assoc. split; [reflexivity|]. split; [|exact G3].
          unfold http_ops, ops in *. rewrite map_app, filter_app, HP, G2. reflexivity. }
        split; intros v Hv; exfalso; [exact (N1 _ Hv)|exact (N2 _ Hv)].
  Qed.
End Sent.

(** The grant was executed. *)
Lemma signed_granted J te r c tr x h : exec (token_handler J te r) tr x -> signed_in J te r c tr ->
  registered te (form_value r "grant_type") h ->
  exists now th y, exec (h r c now) th y /\ (forall e, In e (Ev ONow now :: th) -> In e tr) /\
    (forall rs, y = Done (inl rs) -> In 200%Z (statuses tr)).
Proof.
  intros He HS HR.
  assert (HN : exists now, In (Ev ONow now) tr).
  { destruct HS as (ta & now & rest & _ & ->). exists now. apply in_or_app. simpl. auto. }
  destruct (token_handler_cases _ _ _ _ _ He) as [HX|(h' & c' & ta & tg & HG)].
  - exfalso. destruct HN as [now HN]. apply (in_map ev_op) in HN. simpl in HN. change (In ONow (ops tr)) in HN.
    destruct HX as [(_ & _ & H)|[(_ & _ & H & _)|(_ & _ & -> & _)]]; [rewrite H in HN|rewrite forallb_forall in H; specialize (H _ HN); discriminate H|destruct HN].
    destruct HN as [HN|[HN|[]]]; discriminate HN.
  - destruct HG as (_ & _ & HR' & HA & _ & Hg & ->).
    assert (h' = h) as -> by (eapply registered_fun; eauto).
    destruct (execute_grant_cases _ _ _ _ _ _ Hg) as (now & HX).
    assert (c' = c) as ->.
    { eapply signed_unique; [|exact HS]. exists ta, now.
      destruct HX as [(th & rs & _ & _ & l & -> & _)|[(th & er & _ & _ & l & -> & _)|(th & _ & _ & ->)]]; eauto. }
    exists now. destruct HX as [(th & rs & H1 & H2 & l & -> & _ & _ & H3 & _)|[(th & er & H1 & H2 & l & -> & _)|(th & H1 & _ & ->)]].
    + exists th, (Done (inl rs)). split; [exact H1|]. split.
      * intros e Hi. apply in_or_app. right. destruct Hi as [<-|Hi]; [left; reflexivity|]. right. apply in_or_app. auto.
      * intros rs' _. change (Ev ONow now :: th ++ l)%list with ([Ev ONow now] ++ th ++ l)%list.
        rewrite !statuses_app, !in_app_iff. right. right. right. apply status_in. rewrite H3. unfold success_answer, answer.
        apply in_or_app. simpl. auto.
    + exists th, (Done (inr er)). split; [exact H1|]. split; [|discriminate].
      intros e Hi. apply in_or_app. right. destruct Hi as [<-|Hi]; [left; reflexivity|]. right. apply in_or_app. auto.
    + exists th, Panicked. split; [exact H1|]. split; [|discriminate]. intros e Hi. apply in_or_app. right. exact Hi.
Qed.
