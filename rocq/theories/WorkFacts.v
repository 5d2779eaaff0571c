(** * What was given out works. *)
From Coq Require Import Lia.
From Verif Require Import Hoare WpTac Core World Spec TokenSpec OAuthError Assertion Grants TokenEndpoint GrantFacts TokenFacts
  TokenProofs LogFacts TokenMore ResourceProtector ResourceSpec ResourceFacts AuthzResponse AuthzEndpoint AuthzSpec
  AuthzProofs AuthzMore SysSpec SysFacts SysTrace JsonParse JsonFacts TestStore StoreFacts TraceSpec TraceFacts IsolSpec IsolFacts
  LeakFacts WorkSpec SysDemo.

(** ** Threads *)
Lemma nth_mid {A} (l1 : list A) x l2 : nth_error (l1 ++ x :: l2) (length l1) = Some x.
Proof. rewrite nth_error_app2, Nat.sub_diag by lia. reflexivity. Qed.
Lemma nth_other {A} (l1 : list A) x y l2 n : n <> length l1 -> nth_error (l1 ++ x :: l2) n = nth_error (l1 ++ y :: l2) n.
Proof.
  intros H. destruct (Nat.lt_ge_cases n (length l1)).
  - rewrite !nth_error_app1 by lia. reflexivity.
  - rewrite !nth_error_app2 by lia. destruct (n - length l1)%nat eqn:E; [lia|reflexivity].
Qed.

Section Threads.
  Context {S : Type} (W : rworld S).

  Lemma psteps_grow (c1 c2 : S * list (thread unit)) : psteps W c1 c2 ->
    length (snd c2) = length (snd c1) /\
    forall n th1, nth_error (snd c1) n = Some th1 ->
      exists th2 t, nth_error (snd c2) n = Some th2 /\ th_past th2 = (th_past th1 ++ t)%list.
  Proof.
    induction 1 as [c|c1 c2 c3 H1 [IH1 IH] H2].
    - split; [reflexivity|]. intros n th1 H. exists th1, []. rewrite app_nil_r. auto.
    - destruct H2 as [s s' before past o k x after HW]. cbn [snd] in *. split.
      { rewrite <- IH1, !app_length. reflexivity. }
      intros n th1 H. destruct (IH n th1 H) as (th2 & t & E1 & E2).
      destruct (Nat.eq_dec n (length before)) as [->|Hn].
      + rewrite nth_mid in E1. injection E1 as <-. simpl in E2. exists (Thread (past ++ [Ev o x]) (k x)), (t ++ [Ev o x])%list.
        rewrite nth_mid. simpl. rewrite E2, app_assoc. auto.
      + exists th2, t. rewrite <- E1. split; [apply nth_other; exact Hn|exact E2].
  Qed.

  (* more threads that have not started yet *)
  Lemma psteps_frame (c1 c2 : S * list (thread unit)) l : psteps W c1 c2 ->
    psteps W (fst c1, snd c1 ++ l)%list (fst c2, snd c2 ++ l)%list.
  Proof.
    induction 1 as [c|c1 c2 c3 H1 IH H2]; [constructor|]. econstructor; [exact IH|].
    destruct H2 as [s s' before past o k x after HW]. cbn [fst snd]. rewrite <- !app_assoc. simpl. constructor. exact HW.
  Qed.

  Lemma undisturbed_back cid m progs (ths1 : list (thread unit)) s1 s before past o k x after p :
    psteps W (s1, ths1) (s, before ++ Thread past (Vis o k) :: after)%list ->
    undisturbed cid m progs ths1 (before ++ Thread (past ++ [Ev o x]) (k x) :: after) ->
    nth_error progs (length before) = Some p ->
    undisturbed cid m progs ths1 (before ++ Thread past (Vis o k) :: after) /\
    (length before <> m -> ~ acts_for cid p (past ++ [Ev o x])).
  Proof.
    intros HP HU Hp. destruct (psteps_grow _ _ HP) as [HL HGr]. cbn [snd] in *.
    assert (HB : forall th1, nth_error ths1 (length before) = Some th1 -> length before <> m -> ~ acts_for cid p (past ++ [Ev o x])).
    { intros th1 E1 Hm. destruct (HU _ _ _ _ Hm Hp E1 (nth_mid _ _ _)) as [E|H]; [|exact H]. exfalso.
      destruct (HGr _ _ E1) as (th2 & t & E2 & E3). rewrite nth_mid in E2. injection E2 as <-. subst th1. simpl in E3.
      apply (f_equal (@length event)) in E3. rewrite !app_length in E3. simpl in E3. lia. }
    split.
    - intros n p' th1 th2 Hm H1 H2 H3. destruct (Nat.eq_dec n (length before)) as [->|Hn].
      + rewrite nth_mid in H3. injection H3 as <-. rewrite Hp in H1. injection H1 as <-. right. simpl.
        intros HA. apply (HB _ H2 Hm). apply acts_more. exact HA.
      + apply (HU n p' th1 th2 Hm H1 H2). rewrite <- H3. apply nth_other. exact Hn.
    - intros Hm. destruct (nth_error ths1 (length before)) as [th1|] eqn:E; [exact (HB _ eq_refl Hm)|].
      exfalso. apply nth_error_None in E. rewrite <- HL, app_length in E. simpl in E. lia.
  Qed.
End Threads.

(** ** Access tokens *)
Section Works.
  Context {S : Type} (W : rworld S) (ok : S -> Prop) (sess : S -> string -> option authsession)
          (auth : S -> Z -> option authinfo) (tok : S -> string -> option oauthtoken) (genuine : oauthtoken -> Prop).
  Hypothesis L : linked_store W ok sess auth.
  Hypothesis P : separate_store W ok sess auth tok genuine.
  Hypothesis A : answering_store W ok sess auth tok.

  (* reading changes nothing *)
  Lemma reads_keep s o a s' : ok s -> W s o a s' -> is_update o = false ->
    (forall id i, auth s id = Some i -> auth s' id = Some i) /\
    (forall t k, tok s t = Some k -> tok s' t = Some k) /\
    (forall code x, sess s code = Some x -> sess s' code = Some x).
  Proof.
    intros HO HW HU. split; [|split].
    - intros id i Hi. destruct (sp_info _ _ _ _ _ _ P _ _ _ _ _ _ HO HW Hi) as [H|(u & c & sc & j & E & _)]; [exact H|].
      apply (f_equal ev_op) in E. simpl in E. subst o. discriminate.
    - intros t k Ht. destruct (sp_token _ _ _ _ _ _ P _ _ _ _ _ _ HO HW Ht) as [H|[(i & b & -> & _)|(i & old & -> & _)]];
        [exact H|discriminate|discriminate].
    - intros code x Hx. destruct (sp_session _ _ _ _ _ _ P _ _ _ _ _ _ HO HW Hx) as [H|[H|(y & -> & _)]]; [exact H| |discriminate].
      destruct o; discriminate.
  Qed.

  Lemma token_kept s0 progs m rp r t k i :
    ok s0 -> Forall goidc progs -> nth_error progs m = Some (done (validate rp r)) ->
    forall c1 c2, psteps W c1 c2 -> psteps W (s0, map start progs) c1 ->
    tok (fst c1) t = Some k -> auth (fst c1) (ot_auth_id k) = Some i ->
    nth_error (snd c1) m = Some (start (done (validate rp r))) ->
    undisturbed (ai_client i) m progs (snd c1) (snd c2) ->
    tok (fst c2) t = Some k /\ auth (fst c2) (ot_auth_id k) = Some i /\
    exists th, nth_error (snd c2) m = Some th /\
      (forall a, In (Ev (OFindByAccess t) a) (th_past th) -> a = (Some k, None)) /\
      (forall a, In (Ev (OFindActiveInfo (ot_auth_id k)) a) (th_past th) -> a = (Some i, None)).
  Proof.
    intros HO HG Hm c1 c2 H. induction H as [c|c1 c2 c3 H1 IH H2]; intros H0 Ht Hi Hs HU.
    - split; [exact Ht|]. split; [exact Hi|]. eexists. split; [exact Hs|]. split; intros a [].
    - pose proof (psteps_trans _ _ _ _ H0 H1) as H01.
      destruct (told_psteps W ok sess auth L _ _ H01 _ _ eq_refl HO) as (I1 & I2 & _).
      destruct H2 as [s s' before past o kk x after HW]. cbn [fst snd] in *.
      pose proof I2 as F. apply Forall2_app_inv_r in F. destruct F as (l1 & l2 & F1 & F2 & Hl).
      inversion F2 as [|p th l2' after' HSt HF]; subst progs l2 th after'. simpl in HSt.
      assert (Hp : nth_error (l1 ++ p :: l2')%list (length before) = Some p) by (rewrite <- (forall2_len _ _ _ F1); apply nth_mid).
      destruct c1 as [s1 ths1]. cbn [fst snd] in *.
      destruct (undisturbed_back W _ _ _ _ _ _ _ _ _ _ _ _ _ H1 HU Hp) as [HU' HN].
      destruct (IH H0 Ht Hi Hs HU') as (J1 & J2 & th & J3 & J4 & J5). clear IH.
      destruct (Nat.eq_dec (length before) m) as [E|E].
      + rewrite <- E in Hm, J3 |- *. rewrite Hp in Hm. injection Hm as ->.
        rewrite nth_mid in J3. injection J3 as <-. simpl in J4, J5.
        pose proof (steps_snoc _ _ _ _ x HSt) as HSt'. destruct (steps_done _ _ _ HSt') as (t' & y & He).
        apply validate_reads in He.
        assert (HR : is_update o = false).
        { apply (He (Ev o x)). apply in_or_app. left. apply in_or_app. simpl. auto. }
        destruct (reads_keep _ _ _ _ I1 HW HR) as (R1 & R2 & _).
        split; [auto|]. split; [auto|]. eexists. split; [apply nth_mid|]. simpl. split.
        * intros a Ha. apply in_app_or in Ha. destruct Ha as [Ha|[Ha|[]]]; [auto|].
          exact (an_access _ _ _ _ _ A _ _ _ _ _ I1 J1 (wev_eq W _ _ _ _ _ HW Ha)).
        * intros a Ha. apply in_app_or in Ha. destruct Ha as [Ha|[Ha|[]]]; [auto|].
          exact (an_active _ _ _ _ _ A _ _ _ _ _ I1 J2 (wev_eq W _ _ _ _ _ HW Ha)).
      + destruct (quiet_step W ok sess auth tok genuine L P _ _ _ _ _ _ _ _ _ _ _ _ H01 HO HG HW Hp (HN E) _ _ J2 eq_refl) as (Q1 & Q2 & _).
        split; [apply Q2; auto|]. split; [exact Q1|]. exists th. split; [|split; assumption].
        rewrite <- J3. apply nth_other. auto.
  Qed.

  (* with these answers the request is let through *)
  Definition access_ans (e : event) : option (string * dres oauthtoken) :=
    match e with Ev o a => (match o as o0 return ans o0 -> option (string * dres oauthtoken) with OFindByAccess c => fun a => Some (c, a) | _ => fun _ => None end) a end.

  Lemma validate_good rp r t k i tr x : exec (validate rp r) tr x -> token_from rp r t ->
    (forall a, In (Ev (OFindByAccess t) a) tr -> a = (Some k, None)) ->
    (forall a, In (Ev (OFindActiveInfo (ot_auth_id k)) a) tr -> a = (Some i, None)) ->
    (forall now, In (Ev ONow now) tr -> access_live k now) ->
    x = Done (true, identify r i).
  Proof.
    intros He HT. pose proof (token_from_eq _ _ _ HT) as HE. pose proof (token_from_nonempty _ _ _ HT) as HN. revert He.
    unfold validate. rewrite HE. destruct (t =s? "") eqn:E; sdestruct; [congruence|].
    intros He H1 H2 H3. apply exec_inv in He. destruct He as (a & tr' & -> & He).
    pose proof (H1 a (or_introl eq_refl)) as ->. cbn [dcheck bind] in He.
    apply exec_inv in He. destruct He as (now & tr2 & -> & He).
    assert (EL : (add64 (ot_refreshed k) (ot_access_expires k) <? now)%Z = false).
    { apply Z.ltb_ge. apply (H3 now). simpl. auto. }
    cbn [bind] in He. rewrite EL in He. cbn [bind] in He.
    apply exec_inv in He. destruct He as (b & tr3 & -> & He).
    pose proof (H2 b) as Hb. rewrite Hb in He by (simpl; auto). cbn [bind] in He. apply exec_inv in He.
    destruct He as [-> ->]. reflexivity.
  Qed.

  (** ** Tokens given out are on record *)
  Definition harmless (o : op) : bool :=
    match o with OCreateInfo _ _ _ | OCreateToken _ _ | ORefresh _ _ => false | _ => true end.

  Lemma harmless_keep s (p : prog unit) tr q s' : rsteps W s p tr q s' -> ok s ->
    (forall e, In e tr -> harmless (ev_op e) = true) ->
    ok s' /\ (forall id i, auth s id = Some i -> auth s' id = Some i) /\ (forall t k, tok s t = Some k -> tok s' t = Some k).
  Proof.
    induction 1 as [s p|s o k x s1 tr q s2 HW HR IH]; intros HO HH; [auto|].
    pose proof (ll_ok _ _ _ _ L _ _ _ _ HO HW) as HO1.
    pose proof (HH (Ev o x) (or_introl eq_refl)) as Ho. simpl in Ho.
    destruct (IH HO1) as (I1 & I2 & I3). { intros e He. apply HH. simpl. auto. }
    split; [exact I1|]. split.
    - intros id i Hi. apply I2. destruct (sp_info _ _ _ _ _ _ P _ _ _ _ _ _ HO HW Hi) as [H|(u & c & sc & j & E & _)]; [exact H|].
      apply (f_equal ev_op) in E. simpl in E. subst o. discriminate.
    - intros t kk Ht. apply I3. destruct (sp_token _ _ _ _ _ _ P _ _ _ _ _ _ HO HW Ht) as [H|[(i & b & -> & _)|(i & old & -> & _)]];
        [exact H|discriminate|discriminate].
  Qed.

  Lemma rsteps_inv_ok s (p : prog unit) tr q s' : rsteps W s p tr q s' -> ok s -> ok s'.
  Proof. induction 1 as [s p|s o k x s1 tr q s2 HW HR IH]; intros HO; [exact HO|]. apply IH. eapply ll_ok; eauto. Qed.

  Lemma one_step s (p : prog unit) e tr q s' : rsteps W s p (e :: tr) q s' ->
    exists o x k s1, e = Ev o x /\ W s o x s1 /\ rsteps W s1 (k x) tr q s'.
  Proof. intros H. inversion H; subst. eexists _, _, _, _. split; [reflexivity|]. split; eassumption. Qed.

  (* an authorization was looked up or made, then a token was made for it, and
     neither changed in between or since *)
  Lemma issue_record s (p : prog unit) t1 e1 t2 i b k t3 q s' :
    rsteps W s p (t1 ++ e1 :: t2 ++ Ev (OCreateToken (Some i) b) (Some k, None) :: t3) q s' -> ok s ->
    ((exists id, e1 = Ev (OFindActiveInfo id) (Some i, None)) \/ exists uid cid sc, e1 = Ev (OCreateInfo uid cid sc) (Some i, None)) ->
    (forall e, In e (t2 ++ t3) -> harmless (ev_op e) = true) ->
    tok s' (ot_access k) = Some k /\ ot_auth_id k = ai_id i /\ auth s' (ai_id i) = Some i.
  Proof.
    intros HR HO He HH.
    destruct (rsteps_split W _ _ _ _ _ _ HR) as (q1 & s1 & R1 & R2).
    assert (HO1 : ok s1) by (eapply rsteps_inv_ok; eauto).
    destruct (one_step _ _ _ _ _ _ R2) as (o & x & k1 & s2 & E & HW & R3).
    pose proof (ll_ok _ _ _ _ L _ _ _ _ HO1 HW) as HO2.
    assert (HA : auth s2 (ai_id i) = Some i).
    { destruct He as [[id ->]|(uid & cid & sc & ->)].
      - pose proof (wev_eq W _ _ _ _ _ HW (eq_sym E)) as HW'.
        destruct (ll_active _ _ _ _ L _ _ _ _ HO1 HW') as [A1 A2]. rewrite A2.
        apply (reads_keep _ _ _ _ HO1 HW'); [reflexivity|exact A1].
      - exact (proj1 (ll_create _ _ _ _ L _ _ _ _ _ _ HO1 (wev_eq W _ _ _ _ _ HW (eq_sym E)))). }
    destruct (rsteps_split W _ _ _ _ _ _ R3) as (q3 & s3 & R4 & R5).
    destruct (harmless_keep _ _ _ _ _ R4 HO2) as (HO3 & K1 & _). { intros e Hi. apply HH. apply in_or_app. auto. }
    destruct (one_step _ _ _ _ _ _ R5) as (o' & x' & k3 & s4 & E' & HW4 & R6).
    pose proof (wev_eq W _ _ _ _ _ HW4 (eq_sym E')) as HW4'.
    destruct (an_create _ _ _ _ _ A _ _ _ _ _ HO3 HW4') as (k' & Ek & T1 & T2). injection Ek as <-.
    assert (HA4 : auth s4 (ai_id i) = Some i).
    { destruct (sp_info _ _ _ _ _ _ P _ _ _ _ _ _ HO3 HW4' (K1 _ _ HA)) as [H|(u & c & sc & j & X & _)]; [exact H|discriminate]. }
    pose proof (ll_ok _ _ _ _ L _ _ _ _ HO3 HW4') as HO4.
    destruct (harmless_keep _ _ _ _ _ R6 HO4) as (_ & K5 & K6). { intros e Hi. apply HH. apply in_or_app. auto. }
    auto.
  Qed.

  Lemma refresh_record s (p : prog unit) t1 t old t2 i t3 k t4 q s' :
    rsteps W s p (t1 ++ Ev (OFindByRefresh t) (Some old, None) :: t2 ++ Ev (OFindActiveInfo (ot_auth_id old)) (Some i, None) :: t3 ++
       Ev (ORefresh i old) (Some k, None) :: t4) q s' -> ok s ->
    (forall e, In e (t2 ++ t3 ++ t4) -> harmless (ev_op e) = true) ->
    tok s' (ot_access k) = Some k /\ auth s' (ot_auth_id k) = Some i.
  Proof.
    intros HR HO HH.
    destruct (rsteps_split W _ _ _ _ _ _ HR) as (q1 & s1 & R1 & R2).
    assert (HO1 : ok s1) by (eapply rsteps_inv_ok; eauto).
    destruct (one_step _ _ _ _ _ _ R2) as (o & x & k1 & s2 & E & HW & R3).
    pose proof (wev_eq W _ _ _ _ _ HW (eq_sym E)) as HW'. pose proof (ll_ok _ _ _ _ L _ _ _ _ HO1 HW') as HO2.
    pose proof (an_by_refresh _ _ _ _ _ A _ _ _ _ HO1 HW') as HT1.
    destruct (reads_keep _ _ _ _ HO1 HW' eq_refl) as (_ & K2 & _). apply K2 in HT1. clear K2.
    destruct (rsteps_split W _ _ _ _ _ _ R3) as (q3 & s3 & R4 & R5).
    destruct (harmless_keep _ _ _ _ _ R4 HO2) as (HO3 & _ & K3). { intros e Hi. apply HH. apply in_or_app. auto. }
    apply K3 in HT1. clear K3.
    destruct (one_step _ _ _ _ _ _ R5) as (o4 & x4 & k4 & s4 & E4 & HW4 & R6).
    pose proof (wev_eq W _ _ _ _ _ HW4 (eq_sym E4)) as HW4'. pose proof (ll_ok _ _ _ _ L _ _ _ _ HO3 HW4') as HO4.
    destruct (ll_active _ _ _ _ L _ _ _ _ HO3 HW4') as [HA _].
    destruct (reads_keep _ _ _ _ HO3 HW4' eq_refl) as (K1 & K2 & _). apply K1 in HA. apply K2 in HT1. clear K1 K2.
    destruct (rsteps_split W _ _ _ _ _ _ R6) as (q5 & s5 & R7 & R8).
    destruct (harmless_keep _ _ _ _ _ R7 HO4) as (HO5 & K1 & K2). { intros e Hi. apply HH. rewrite !in_app_iff. auto. }
    apply K1 in HA. apply K2 in HT1. clear K1 K2.
    destruct (one_step _ _ _ _ _ _ R8) as (o6 & x6 & k6 & s6 & E6 & HW6 & R9).
    pose proof (wev_eq W _ _ _ _ _ HW6 (eq_sym E6)) as HW6'. pose proof (ll_ok _ _ _ _ L _ _ _ _ HO5 HW6') as HO6.
    destruct (an_refresh _ _ _ _ _ A _ _ _ _ _ HO5 HW6') as (T1 & y & T2 & T3).
    assert (y = old) as -> by congruence.
    assert (HA6 : auth s6 (ot_auth_id old) = Some i).
    { destruct (sp_info _ _ _ _ _ _ P _ _ _ _ _ _ HO5 HW6' HA) as [H|(u & c & sc & j & X & _)]; [exact H|discriminate]. }
    destruct (harmless_keep _ _ _ _ _ R9 HO6) as (_ & K5 & K6). { intros e Hi. apply HH. rewrite !in_app_iff. auto. }
    rewrite T3. auto.
  Qed.

  Lemma filter_split (f : event -> bool) tr d1 e d2 : filter f tr = (d1 ++ e :: d2)%list ->
    exists t1 t2, tr = (t1 ++ e :: t2)%list /\ filter f t1 = d1 /\ filter f t2 = d2.
  Proof.
    revert d1. induction tr as [|x tr IH]; intros d1 H; simpl in H; [destruct d1; discriminate|].
    destruct (f x) eqn:E.
    - destruct d1 as [|d d1]; simpl in H; injection H as H1 H2.
      + subst. exists [], tr. auto.
      + subst. destruct (IH _ H2) as (t1 & t2 & -> & H3 & H4). exists (d :: t1), t2. simpl. rewrite E, H3. auto.
    - destruct (IH _ H) as (t1 & t2 & -> & H3 & H4). exists (x :: t1), t2. simpl. rewrite E. auto.
  Qed.
  Lemma harmless_filter (f : event -> bool) t : (forall e, f e = false -> harmless (ev_op e) = true) ->
    (forall e, In e (filter f t) -> harmless (ev_op e) = true) -> forall e, In e t -> harmless (ev_op e) = true.
  Proof. intros H1 H2 e He. destruct (f e) eqn:E; [|auto]. apply H2. apply filter_In. auto. Qed.
  Lemma data_harmless e : is_data (ev_op e) = false -> harmless (ev_op e) = true.
  Proof. destruct e as [o a]. destruct o; simpl; try reflexivity; discriminate. Qed.
  Lemma call_harmless e : is_call (ev_op e) = false -> harmless (ev_op e) = true.
  Proof. destruct e as [o a]. destruct o; simpl; try reflexivity; discriminate. Qed.

  Lemma given_out J te r s tr s' :
    only_bundled J te -> ok s -> rsteps W s (token_handler J te r) tr (Ret tt) s' -> In 200%Z (statuses tr) ->
    exists c now th rs k i, served J te r tr c now th rs /\ rs_access rs = ot_access k /\ rs_expires rs = ot_access_expires k /\ rs_refresh rs = ot_refresh k /\
      rs_scope rs = ai_scope i /\ ai_client i = c_id c /\
      tok s' (rs_access rs) = Some k /\ auth s' (ot_auth_id k) = Some i.
  Proof.
    intros HB HO HR HI. pose proof (rsteps_steps _ _ _ _ _ _ HR) as HS.
    assert (He : exec (token_handler J te r) tr (Done tt)).
    { rewrite <- (app_nil_r tr). eapply steps_exec; [exact HS|constructor]. }
    destruct (served_intro _ _ _ _ _ HB He HI) as (h & c & now & th & rs & H1 & H2 & H3).
    exists c, now, th, rs. pose proof H2 as (ta & l & HA & Htr & _ & Hl & _).
    assert (HLl : forall e, In e l -> harmless (ev_op e) = true).
    { apply (harmless_filter _ _ data_harmless). unfold data_calls in Hl. rewrite Hl. intros e []. }
    assert (Direct : forall ident, direct_success r c ident (calls th) rs ->
      exists k i, rs_access rs = ot_access k /\ rs_expires rs = ot_access_expires k /\ rs_refresh rs = ot_refresh k /\
        rs_scope rs = ai_scope i /\ ai_client i = c_id c /\ tok s' (rs_access rs) = Some k /\ auth s' (ot_auth_id k) = Some i).
    { intros ident (h0 & uid & i & k & _ & _ & E & ->). exists k, i. simpl.
      unfold direct_calls in E. destruct (filter_split _ _ _ _ _ E) as (u1 & u2 & -> & _ & E2).
      destruct (filter_split _ _ [] _ _ E2) as (u3 & u4 & -> & E3 & E4).
      assert (G : tok s' (ot_access k) = Some k /\ ot_auth_id k = ai_id i /\ auth s' (ai_id i) = Some i).
      { eapply (issue_record _ _ (ta ++ Ev ONow now :: u1) _ u3 i true k (u4 ++ l)).
        - rewrite Htr in HR. rewrite <- !app_assoc in HR. simpl in HR. rewrite <- !app_assoc in HR. simpl in HR.
          rewrite <- !app_assoc. simpl. exact HR.
        - exact HO.
        - right. eauto.
        - intros e He'. rewrite !in_app_iff in He'. destruct He' as [He'|[He'|He']]; [| |auto].
          + eapply (harmless_filter _ _ call_harmless); [|exact He']. unfold calls in E3. rewrite E3. intros ? [].
          + eapply (harmless_filter _ _ call_harmless); [|exact He']. unfold calls in E4. rewrite E4. intros ? []. }
      destruct G as (G1 & G2 & G3). rewrite G2. repeat (split; [reflexivity|]). split; [|auto].
      assert (X : exists uid sc s1 s2, ok s1 /\ W s1 (OCreateInfo uid (c_id c) sc) (Some i, None) s2).
      { rewrite Htr in HR. change (Ev ONow now :: (u1 ++ Ev (OCreateInfo uid (c_id c) (form_value r "scope")) (Some i, None) ::
            u3 ++ Ev (OCreateToken (Some i) true) (Some k, None) :: u4) ++ l)%list with
          ([Ev ONow now] ++ (u1 ++ Ev (OCreateInfo uid (c_id c) (form_value r "scope")) (Some i, None) ::
            u3 ++ Ev (OCreateToken (Some i) true) (Some k, None) :: u4) ++ l)%list in HR.
        rewrite <- !app_assoc in HR. rewrite !app_assoc in HR. rewrite <- app_assoc in HR. 
        destruct (rsteps_split W _ _ _ _ _ _ HR) as (q1 & s1 & R1 & R2). cbn [app] in R2.
        destruct (one_step _ _ _ _ _ _ R2) as (o & x & k1 & s2 & Eo & HW & _).
        exists uid, (form_value r "scope"), s1, s2. split; [eapply rsteps_inv_ok; eauto|].
        exact (wev_eq W _ _ _ _ _ HW (eq_sym Eo)). }
      destruct X as (uid' & sc & s1 & s2 & X1 & X2). exact (proj2 (proj2 (ll_create _ _ _ _ L _ _ _ _ _ _ X1 X2))). }
    destruct (registered_bundled _ _ _ _ HB H1).
    - apply (wp_exec _ _ _ _ _ (authorization_code_wp _ _ _ _)) in H3. destruct H3 as (_ & _ & x & i & k & C1 & C2 & C3 & C4 & C5 & rest & C6 & C7).
      exists k, i. split; [exact H2|]. split; [exact C2|]. split; [exact C3|]. split; [exact C4|]. split; [exact C5|]. split; [exact (proj1 (proj2 (proj2 C1)))|].
      rewrite C2. unfold found_calls in C6. cbn [app] in C6. unfold data_calls in C6.
      destruct (filter_split _ _ [_] _ _ C6) as (u1 & u2 & -> & _ & E2).
      destruct (filter_split _ _ [] _ _ E2) as (u3 & u4 & -> & E3 & E4).
      assert (G : tok s' (ot_access k) = Some k /\ ot_auth_id k = ai_id i /\ auth s' (ai_id i) = Some i).
      { eapply (issue_record _ _ (ta ++ Ev ONow now :: u1) _ u3 i true k (u4 ++ l)).
        - rewrite Htr in HR. rewrite <- !app_assoc in HR. simpl in HR. rewrite <- !app_assoc in HR. simpl in HR.
          rewrite <- !app_assoc. simpl. exact HR.
        - exact HO.
        - left. eauto.
        - intros e He'. rewrite !in_app_iff in He'. destruct He' as [He'|[He'|He']]; [| |auto].
          + eapply (harmless_filter _ _ data_harmless); [|exact He']. rewrite E3. intros ? [].
          + eapply (harmless_filter _ _ data_harmless); [|exact He']. rewrite E4.
            intros ? [<-|Hin]; [reflexivity|]. destruct C7 as [(_ & iss & cs & -> & _)|(_ & -> & _)]; [|destruct Hin].
            destruct Hin as [<-|[]]. reflexivity. }
      destruct G as (G1 & G2 & G3). rewrite G2. auto.
    - apply (wp_exec _ _ _ _ _ (refresh_token_wp _ _ _)) in H3. destruct H3 as (_ & _ & old & i & k & C1 & C6 & ->).
      exists k, i. split; [exact H2|]. simpl. do 4 (split; [reflexivity|]). split; [exact (proj1 (proj2 (proj2 C1)))|].
      unfold refresh_found in C6. cbn [app] in C6. unfold data_calls in C6.
      destruct (filter_split _ _ [] _ _ C6) as (u1 & u2 & -> & _ & E2).
      destruct (filter_split _ _ [] _ _ E2) as (u3 & u4 & -> & E3 & E4).
      destruct (filter_split _ _ [] _ _ E4) as (u5 & u6 & -> & E5 & E6).
      eapply (refresh_record _ _ (ta ++ Ev ONow now :: u1) _ old u3 i u5 k (u6 ++ l)).
      + rewrite Htr in HR. rewrite <- !app_assoc in HR. simpl in HR. rewrite <- !app_assoc in HR. simpl in HR.
        rewrite <- !app_assoc in HR. simpl in HR. rewrite <- !app_assoc. simpl. exact HR.
      + exact HO.
      + intros e He'. rewrite !in_app_iff in He'. destruct He' as [He'|[He'|[He'|He']]]; [| | |auto].
        * eapply (harmless_filter _ _ data_harmless); [|exact He']. rewrite E3. intros ? [].
        * eapply (harmless_filter _ _ data_harmless); [|exact He']. rewrite E5. intros ? [].
        * eapply (harmless_filter _ _ data_harmless); [|exact He']. rewrite E6. intros ? [].
    - apply (wp_exec _ _ _ _ _ (password_grant_wp _ _ _)) in H3. destruct H3 as (_ & _ & H3). destruct (Direct _ H3) as (k & i & D). exists k, i. auto.
    - apply (wp_exec _ _ _ _ _ (client_credentials_wp _ _ _)) in H3. destruct H3 as (_ & _ & H3). destruct (Direct _ H3) as (k & i & D). exists k, i. auto.
    - apply (wp_exec _ _ _ _ _ (jwt_grant_wp _ _ _ _)) in H3. destruct H3 as (_ & _ & H3). destruct (Direct _ H3) as (k & i & D). exists k, i. auto.
  Qed.
End Works.

(** ** The bundled store *)
Lemma create_token_step b s i c a s' : sstep b s (OCreateToken (Some i) c) a s' ->
  exists t1 t2, let k := created_token i t1 t2 in a = (Some k, None) /\ st_tokens s' = aput seqb (ot_access k) k (st_tokens s).
Proof.
  intros H.
  assert (X : forall o a, sstep b s o a s' -> match o as o0 return ans o0 -> Prop with
     OCreateToken (Some i) _ => fun a => exists t1 t2, let k := created_token i t1 t2 in
       a = (Some k, None) /\ st_tokens s' = aput seqb (ot_access k) k (st_tokens s)
     | _ => fun _ => True end a).
  { intros o a0 HS. destruct HS; try exact I. exists t1, t2. split; reflexivity. }
  exact (X _ _ H).
Qed.
Lemma refresh_step b s i old k s' : sstep b s (ORefresh i old) (Some k, None) s' ->
  exists x t, sget (ot_access old) (st_tokens s) = Some x /\
    k = OAuthToken (ot_auth_id x) (ot_access x ++ ":R") 86400 t (ot_refresh x) (ot_refresh_expires x) (ot_created x) /\
    st_tokens s' = aput seqb (ot_access k) k (adel seqb (ot_access old) (st_tokens s)).
Proof.
  intros H.
  assert (X : forall o a, sstep b s o a s' -> match o as o0 return ans o0 -> Prop with
     ORefresh i old => fun a => forall k, a = (Some k, None) -> exists x t, sget (ot_access old) (st_tokens s) = Some x /\
    k = OAuthToken (ot_auth_id x) (ot_access x ++ ":R") 86400 t (ot_refresh x) (ot_refresh_expires x) (ot_created x) /\
    st_tokens s' = aput seqb (ot_access k) k (adel seqb (ot_access old) (st_tokens s))
     | _ => fun _ => True end a).
  { intros o a HS. destruct HS; try exact I. intros k' E. injection E as <-. exists x, t. auto. }
  exact (X _ _ H k eq_refl).
Qed.

Lemma bundled_answering b : answering_store (sstep b) tidiest (fun s code => sget code (st_sessions s))
  (fun s id => zget id (st_infos s)) (fun s t => sget t (st_tokens s)).
Proof.
  constructor.
  - intros s t k a s' _ Hk H. apply find_access_step in H. rewrite Hk in H. exact H.
  - intros s t k a s' [[HT _] _] Hk H. pose proof (sstep_reading _ _ _ _ _ HT H) as [_ E]. rewrite Hk in E. exact E.
  - intros s t k a s' [[HT _] _] Hk H. pose proof (sstep_reading _ _ _ _ _ HT H) as [_ E]. rewrite Hk in E. exact E.
  - intros s i c a s' _ H. apply create_token_step in H. destruct H as (t1 & t2 & -> & E). eexists. split; [reflexivity|].
    rewrite E. unfold sget at 1. rewrite sget_aput, (proj2 (seqb_eq _ _) eq_refl). split; reflexivity.
  - intros s t k s' [[_ HD] HT] H. destruct (find_refresh_step _ _ _ _ _ H) as (t' & HI & _).
    destruct (HT _ _ HI) as [-> _]. apply nodup_sget; assumption.
  - intros s i old k s' _ H. apply refresh_step in H. destruct H as (x & t & E1 & -> & E2). rewrite E2. unfold sget at 1.
    rewrite sget_aput, (proj2 (seqb_eq _ _) eq_refl). split; [reflexivity|]. exists x. auto.
  - intros s x a s' [[HT _] _] Hx H. pose proof (sstep_reading _ _ _ _ _ HT H) as [(E & _)|(_ & _ & _ & E)]; [exact E|].
    unfold has_session in E. rewrite Hx in E. discriminate.
  - intros s uid cid scope x s' [[HT _] _] H E. pose proof (sstep_reading _ _ _ _ _ HT H) as (j & X & _). congruence.
  - intros s i y s' [[HT _] _] H. pose proof (sstep_reading _ _ _ _ _ HT H) as (j & E & _ & ->). injection E as <-.
    exists (stored_session i y). cbn [set_sessions st_sessions]. unfold sget. rewrite sget_aput, (proj2 (seqb_eq _ _) eq_refl). auto.
Qed.
