(** * Refresh tokens on record can be used. *)
From Coq Require Import Lia.
From Verif Require Import Hoare WpTac Core World Spec TokenSpec OAuthError Assertion Grants TokenEndpoint GrantFacts TokenFacts
  TokenProofs LogFacts TokenMore TokenComplete ResourceProtector ResourceSpec ResourceFacts AuthzResponse AuthzEndpoint AuthzSpec
  AuthzProofs AuthzMore SysSpec SysFacts SysTrace JsonParse JsonFacts TestStore StoreFacts TraceSpec TraceFacts IsolSpec IsolFacts
  LeakFacts WorkSpec SysDemo WorkFacts RedeemFacts RefreshSpec.

Definition is_refresh (e : event) : bool := match ev_op e with ORefresh _ _ => true | _ => false end.
Definition refresh_op (o : op) : bool :=
  match o with OFindByRefresh _ | OFindActiveInfo _ | ORefresh _ _ => true | _ => false end.

(** Refreshing comes last. *)
Lemma refresh_order_wp r c now :
  wp (fun h o => refresh_op o = true -> existsb is_refresh h = false) (fun _ _ => True) [] (refresh_token r c now).
Proof.
  unfold refresh_token, dcheck, refuse. wp_go; try exact I; try (intros; reflexivity); try discriminate.
Qed.

Lemma refresh_order J te r tr x t1 o a t2 : registered te (form_value r "grant_type") refresh_token ->
  exec (token_handler J te r) tr x -> tr = (t1 ++ Ev o a :: t2)%list -> refresh_op o = true -> existsb is_refresh t1 = false.
Proof.
  intros HR He E Ho. assert (Hg : grant_op o = true) by (destruct o; try discriminate Ho; reflexivity).
  destruct (granted_event _ _ _ _ _ _ _ _ _ He E Hg) as (h & c & now & th & z & t & t' & H1 & (ta & HA & Ht1) & H3 & H4).
  assert (h = refresh_token) as -> by (eapply registered_fun; eauto).
  pose proof (exec_guard _ _ _ _ _ _ _ _ _ (refresh_order_wp r c now) H3 H4 Ho) as HD. cbn [app] in HD.
  subst t1. rewrite existsb_app. cbn [existsb is_refresh ev_op orb]. rewrite HD, orb_false_r.
  destruct (existsb is_refresh ta) eqn:EE; [|reflexivity]. apply existsb_exists in EE. destruct EE as ([o' a'] & HI & Hd).
  destruct (authenticated_ops _ _ _ _ _ HA) as (_ & _ & HO & _). apply HO in HI. unfold is_refresh in Hd. simpl in *.
  destruct o'; discriminate.
Qed.

(** With good answers the refresh succeeds. *)
Lemma refresh_good r c now tr y id i : exec (refresh_token r c now) tr y ->
  form_value r "refresh_token" <> "" -> ai_client i = c_id c -> has_word (ai_scope i) "offline_access" ->
  (forall a, In (Ev (OFindByRefresh (form_value r "refresh_token")) a) tr ->
     exists k, a = (Some k, None) /\ ot_auth_id k = id /\ refresh_live k now) ->
  (forall a, In (Ev (OFindActiveInfo id) a) tr -> a = (Some i, None)) ->
  (forall i' k a, In (Ev (ORefresh i' k) a) tr -> exists k', a = (Some k', None)) ->
  exists rs, y = Done (inl rs).
Proof.
  intros He H1 H2 H3 A1 A2 A3. revert He. unfold refresh_token.
  destruct (form_value r "refresh_token" =s? "") eqn:E1; sdestruct; [congruence|].
  intros He. apply exec_inv in He. destruct He as (a & t1 & -> & He).
  destruct (A1 a (or_introl eq_refl)) as (k & -> & Hk & HL). cbn [dcheck bind] in He.
  assert (E2 : (add64 (ot_refresh_expires k) (ot_created k) <? now)%Z = false) by (apply Z.ltb_ge; exact HL).
  rewrite E2 in He. rewrite Hk in He. apply exec_inv in He. destruct He as (a & t2 & -> & He).
  pose proof (A2 a) as E. rewrite E in He by (simpl; auto). clear E. cbn [dcheck bind] in He.
  assert (E3 : (ai_client i =s? c_id c) = true) by (rewrite H2; apply seqb_eq; reflexivity).
  assert (E4 : include_offline (ai_scope i) = true) by (apply include_word; exact H3).
  rewrite E3, E4 in He. cbn [negb] in He.
  apply exec_inv in He. destruct He as (a3 & t3 & -> & He).
  destruct (A3 i k a3) as [k' ->]; [simpl; auto|]. cbn [dcheck bind] in He.
  apply exec_inv in He. destruct He as [_ ->]. eauto.
Qed.

Section Refresh.
  Context {S : Type} (W : rworld S) (ok : S -> Prop) (sess : S -> string -> option authsession)
          (auth : S -> Z -> option authinfo) (tok : S -> string -> option oauthtoken) (genuine : oauthtoken -> Prop).
  Hypothesis L : linked_store W ok sess auth.
  Hypothesis P : separate_store W ok sess auth tok genuine.
  Hypothesis A : answering_store W ok sess auth tok.
  Hypothesis F : refreshing_store W ok tok.

  Definition refresh_answers (r : request) (id : Z) (i : authinfo) (past : list event) : Prop :=
    (forall a, In (Ev (OFindByRefresh (form_value r "refresh_token")) a) past ->
       exists k, a = (Some k, None) /\ ot_auth_id k = id) /\
    (forall a, In (Ev (OFindActiveInfo id) a) past -> a = (Some i, None)) /\
    (forall i' k a, In (Ev (ORefresh i' k) a) past -> exists k', a = (Some k', None)).

  Lemma refresh_kept s0 progs m J te r t k i :
    ok s0 -> Forall goidc progs -> nth_error progs m = Some (token_handler J te r) ->
    registered te (form_value r "grant_type") refresh_token ->
    ot_refresh k = form_value r "refresh_token" -> form_value r "refresh_token" <> "" ->
    forall c1 c2, psteps W c1 c2 -> psteps W (s0, map start progs) c1 ->
    tok (fst c1) t = Some k -> auth (fst c1) (ot_auth_id k) = Some i ->
    nth_error (snd c1) m = Some (start (token_handler J te r)) ->
    undisturbed (ai_client i) m progs (snd c1) (snd c2) ->
    exists th, nth_error (snd c2) m = Some th /\ refresh_answers r (ot_auth_id k) i (th_past th) /\
      (existsb is_refresh (th_past th) = false ->
        tok (fst c2) t = Some k /\ auth (fst c2) (ot_auth_id k) = Some i /\
        forall k', In (Ev (OFindByRefresh (form_value r "refresh_token")) (Some k', None)) (th_past th) ->
          tok (fst c2) (ot_access k') = Some k').
  Proof.
    set (rt := form_value r "refresh_token").
    intros HO HG Hm HReg Ek Nk c1 c2 H. induction H as [c|c1 c2 c3 H1 IH H2]; intros H0 Ht Hi Hs HU.
    - eexists. split; [exact Hs|]. split; [|].
      + split; [intros a []|]. split; [intros a []|intros ? ? a []].
      + intros _. split; [exact Ht|]. split; [exact Hi|]. intros k' [].
    - pose proof (psteps_trans _ _ _ _ H0 H1) as H01.
      destruct (told_psteps W ok sess auth L _ _ H01 _ _ eq_refl HO) as (I1 & I2 & _).
      destruct H2 as [s s' before past o kk a after HW]. cbn [fst snd] in *.
      pose proof I2 as F0. apply Forall2_app_inv_r in F0. destruct F0 as (l1 & l2 & F1 & F2 & Hl).
      inversion F2 as [|p th l2' after' HSt HF]; subst progs l2 th after'. simpl in HSt.
      assert (Hp : nth_error (l1 ++ p :: l2')%list (length before) = Some p) by (rewrite <- (forall2_len _ _ _ F1); apply nth_mid).
      destruct c1 as [s1 ths1]. cbn [fst snd] in *.
      destruct (undisturbed_back W _ _ _ _ _ _ _ _ _ _ _ _ _ H1 HU Hp) as [HU' HNA].
      destruct (IH H0 Ht Hi Hs HU') as (th & J1 & (A1 & A2 & A3) & JK). clear IH. fold rt in A1, JK.
      destruct (Nat.eq_dec (length before) m) as [E|E].
      + rewrite <- E in Hm, J1 |- *. rewrite Hp in Hm. injection Hm as ->.
        rewrite nth_mid in J1. injection J1 as <-. simpl in A1, A2, A3, JK.
        eexists. split; [apply nth_mid|]. simpl.
        pose proof (steps_snoc _ _ _ _ a HSt) as HSt'. destruct (steps_prefix _ _ _ HSt') as (t' & y & He).
        assert (Et : ((past ++ [Ev o a]) ++ t' = past ++ Ev o a :: t')%list) by (rewrite <- app_assoc; reflexivity).
        assert (HC : refresh_op o = true -> tok s t = Some k /\ auth s (ot_auth_id k) = Some i /\
                     forall k', In (Ev (OFindByRefresh rt) (Some k', None)) past -> tok s (ot_access k') = Some k').
        { intros Ho. apply JK. exact (refresh_order _ _ _ _ _ _ _ _ _ HReg He Et Ho). }
        split.
        * unfold refresh_answers. fold rt. split; [|split].
          -- intros b Hb. apply in_app_or in Hb. destruct Hb as [Hb|[Hb|[]]]; [auto|].
             pose proof (f_equal ev_op Hb) as Eo. simpl in Eo. destruct HC as (C1 & _); [rewrite Eo; reflexivity|].
             pose proof (wev_eq W _ _ _ _ _ HW Hb) as HW'. rewrite <- Ek in HW'.
             destruct (rf_found _ _ _ F _ _ _ _ _ I1 C1 ltac:(congruence) HW') as (k' & -> & K1 & _). eauto.
          -- intros b Hb. apply in_app_or in Hb. destruct Hb as [Hb|[Hb|[]]]; [auto|].
             pose proof (f_equal ev_op Hb) as Eo. simpl in Eo. destruct HC as (_ & C1 & _); [rewrite Eo; reflexivity|].
             exact (an_active _ _ _ _ _ A _ _ _ _ _ I1 C1 (wev_eq W _ _ _ _ _ HW Hb)).
          -- intros i' k0 b Hb. apply in_app_or in Hb. destruct Hb as [Hb|[Hb|[]]]; [eauto|].
             pose proof (f_equal ev_op Hb) as Eo. simpl in Eo. destruct HC as (_ & _ & C1); [rewrite Eo; reflexivity|].
             apply (rf_renewed _ _ _ F _ i' k0 b s' I1); [|exact (wev_eq W _ _ _ _ _ HW Hb)]. apply C1.
             destruct (refresh_guarded _ _ _ _ _ _ _ _ _ HReg He Et) as (c & now & th & old & info & (ta & _ & T2) & T3 & _ & T5);
               [rewrite Eo; reflexivity|rewrite Eo; reflexivity|].
             rewrite Eo in T3. injection T3 as -> ->. rewrite T2. apply in_or_app. right. right.
             assert (X : In (Ev (OFindByRefresh rt) (Some old, None)) (data_calls th)) by (rewrite T5; unfold refresh_found; simpl; auto).
             apply filter_In in X. exact (proj1 X).
        * intros Hd. rewrite existsb_app in Hd. apply orb_false_iff in Hd. destruct Hd as [Hd1 Hd2].
          simpl in Hd2. rewrite orb_false_r in Hd2. destruct (JK Hd1) as (K1 & K2 & K3).
          assert (HRd : harmless o = true).
          { destruct (harmless o) eqn:EU; [reflexivity|]. exfalso.
            assert (EG : grant_op o = true /\ is_update o = true) by (destruct o; try discriminate EU; split; reflexivity).
            destruct (refresh_guarded _ _ _ _ _ _ _ _ _ HReg He Et (proj1 EG) (proj2 EG)) as (c & now & th & old & info & _ & T3 & _).
            unfold is_refresh in Hd2. simpl in Hd2. rewrite T3 in Hd2. discriminate Hd2. }
          assert (R1 : forall id j, auth s id = Some j -> auth s' id = Some j).
          { intros id j Hj. destruct (sp_info _ _ _ _ _ _ P _ _ _ _ _ _ I1 HW Hj) as [X|(u & c & sc & j' & X & _)]; [exact X|].
            apply (f_equal ev_op) in X. simpl in X. subst o. discriminate. }
          assert (R2 : forall t0 k0, tok s t0 = Some k0 -> tok s' t0 = Some k0).
          { intros t0 k0 Hk0. destruct (sp_token _ _ _ _ _ _ P _ _ _ _ _ _ I1 HW Hk0) as [X|[(j & b & X & _)|(j & old & X & _)]];
              [exact X|subst o; discriminate|subst o; discriminate]. }
          split; [auto|]. split; [auto|]. intros k' Hk'. apply in_app_or in Hk'. destruct Hk' as [Hk'|[Hk'|[]]]; [auto|].
          pose proof (wev_eq W _ _ _ _ _ HW Hk') as HW'. apply R2.
          exact (an_by_refresh _ _ _ _ _ A _ _ _ _ I1 HW').
      + exists th. split; [rewrite <- J1; apply nth_other; auto|]. split; [exact (conj A1 (conj A2 A3))|].
        intros Hd. destruct (JK Hd) as (K1 & K2 & K3).
        destruct (quiet_step W ok sess auth tok genuine L P _ _ _ _ _ _ _ _ _ _ _ _ H01 HO HG HW Hp (HNA E) _ _ K2 eq_refl) as (Q1 & Q2 & _).
        split; [auto|]. split; [exact Q1|]. intros k' Hk'. apply Q2; [auto|].
        destruct (A1 _ Hk') as (k2 & E2 & E3). injection E2 as <-. exact E3.
  Qed.
End Refresh.

(** ** The bundled store *)

(** Refresh tokens are named after their authorization. *)
Definition renewable (s : store) : Prop :=
  tidiest s /\ forall t k, In (t, k) (st_tokens s) -> ot_refresh k = "" \/ ot_refresh k = "REFRESH_TOKEN_" ++ itoa (ot_auth_id k).

Lemma renewable_step b s o a s' : renewable s -> sstep b s o a s' -> renewable s'.
Proof.
  intros [H1 H2] H. split; [eapply tidiest_step; eauto|]. destruct H; try exact H2; cbn [set_tokens st_tokens].
  - intros t k HI. destruct HI as [HI|HI].
    + injection HI as <- <-. unfold created_token. cbn [ot_refresh ot_auth_id]. destruct (include_offline (ai_scope i)); auto.
    + apply (in_adel seqb seqb_eq) in HI. destruct HI. eauto.
  - intros t' k HI. destruct HI as [HI|HI].
    + injection HI as <- <-. subst new. cbn [ot_refresh ot_auth_id]. apply (aget_in seqb seqb_eq) in H. eauto.
    + apply (in_adel seqb seqb_eq) in HI. destruct HI as [HI _]. apply (in_adel seqb seqb_eq) in HI. destruct HI. eauto.
Qed.

Lemma bundled_linked5 b :
  linked_store (sstep b) renewable (fun s code => sget code (st_sessions s)) (fun s id => zget id (st_infos s)).
Proof.
  destruct (bundled_linked3 b) as [L0 L1 L2 L3 L4 L5 L6]. constructor.
  - intros s o a s'. apply renewable_step.
  - intros s code x s' [HT _]. apply L1. exact HT.
  - intros s o a s' code x [HT _]. apply L2. exact HT.
  - intros s id i s' [HT _]. apply L3. exact HT.
  - intros s uid cid i s' [HT _]. apply L4. exact HT.
  - intros s uid cid scope i s' [HT _]. apply L5. exact HT.
  - intros s o a s' id i [HT _]. apply L6. exact HT.
Qed.
Lemma bundled_separate5 b : separate_store (sstep b) renewable (fun s code => sget code (st_sessions s))
  (fun s id => zget id (st_infos s)) (fun s t => sget t (st_tokens s)) genuine_token.
Proof.
  destruct (bundled_separate b) as [P1 P2 P3 P4 P5]. constructor.
  - intros s o a s' id i [HT _]. apply P1. exact HT.
  - intros s o a s' t k [HT _]. apply P2. exact HT.
  - intros s t k s' [HT _]. apply P3. exact HT.
  - intros s o a s' code x [HT _]. apply P4. exact HT.
  - intros s code x s' [HT _]. apply P5. exact HT.
Qed.
Lemma bundled_answering5 b : answering_store (sstep b) renewable (fun s code => sget code (st_sessions s))
  (fun s id => zget id (st_infos s)) (fun s t => sget t (st_tokens s)).
Proof.
  destruct (bundled_answering b) as [A1 A2 A3 A4 A5 A6 A7 A8 A9]. constructor.
  - intros s t k a s' [HT _]. apply A1. exact HT.
  - intros s t k a s' [HT _]. apply A2. exact HT.
  - intros s t k a s' [HT _]. apply A3. exact HT.
  - intros s i c a s' [HT _]. apply A4. exact HT.
  - intros s t k s' [HT _]. apply A5. exact HT.
  - intros s i old k s' [HT _]. apply A6. exact HT.
  - intros s x a s' [HT _]. apply A7. exact HT.
  - intros s uid cid scope x s' [HT _]. apply A8. exact HT.
  - intros s i y s' [HT _]. apply A9. exact HT.
Qed.

Lemma find_refresh_any b s t a s' : sstep b s (OFindByRefresh t) a s' ->
  (exists k x, In (k, x) (st_tokens s) /\ ot_refresh x = t /\ a = (Some x, None)) \/
  (forall k x, In (k, x) (st_tokens s) -> ot_refresh x <> t).
Proof.
  intros H.
  assert (X : forall o a, sstep b s o a s' -> match o as o0 return ans o0 -> Prop with
     | OFindByRefresh t => fun a => (exists k x, In (k, x) (st_tokens s) /\ ot_refresh x = t /\ a = (Some x, None)) \/
         (forall k x, In (k, x) (st_tokens s) -> ot_refresh x <> t) | _ => fun _ => True end a).
  { clear. intros o a H. destruct H; try exact I; eauto 6; try (destruct o; try exact I; discriminate). }
  exact (X _ _ H).
Qed.
Lemma refresh_any b s i old a s' : sstep b s (ORefresh i old) a s' -> exists k, a = (Some k, None).
Proof.
  intros H.
  assert (X : forall o a, sstep b s o a s' -> match o as o0 return ans o0 -> Prop with
     | ORefresh i old => fun a => exists k, a = (Some k, None) | _ => fun _ => True end a).
  { clear. intros o a H. destruct H; try exact I; eauto 6; try (destruct o; try exact I; discriminate). }
  exact (X _ _ H).
Qed.

Lemma bundled_refreshing b : refreshing_store (sstep b) renewable (fun s t => sget t (st_tokens s)).
Proof.
  constructor.
  - intros s t k a s' [[[_ HD] HT] HN] Hk Hne H. pose proof (aget_in seqb seqb_eq _ _ _ Hk) as HI.
    destruct (find_refresh_any _ _ _ _ _ H) as [(t' & x & X1 & X2 & ->)|X]; [|exfalso; exact (X _ _ HI eq_refl)].
    exists x. split; [reflexivity|]. destruct (HT _ _ X1) as [-> _]. split; [|apply nodup_sget; assumption].
    destruct (HN _ _ X1) as [N1|N1], (HN _ _ HI) as [N2|N2]; try congruence.
    apply itoa_inj. apply (app_inj_l "REFRESH_TOKEN_"). congruence.
  - intros s i old a s' _ _ H. exact (refresh_any _ _ _ _ _ _ H).
Qed.

Lemma refresh_again b s i old k s' : sstep b s (ORefresh i old) (Some k, None) s' ->
  forall x, sget (ot_access old) (st_tokens s) = Some x -> ot_refresh k = ot_refresh x.
Proof.
  intros H.
  assert (X : forall o a, sstep b s o a s' -> match o as o0 return ans o0 -> Prop with
     | ORefresh i old => fun a => forall k, a = (Some k, None) ->
         forall x, sget (ot_access old) (st_tokens s) = Some x -> ot_refresh k = ot_refresh x
     | _ => fun _ => True end a).
  { clear. intros o a H. destruct H; try exact I; try (destruct o; try exact I; discriminate).
    intros kk E y Hy. injection E as <-. rewrite H in Hy. injection Hy as <-. reflexivity. }
  exact (X _ _ H _ eq_refl).
Qed.
Lemma bundled_renewing b : renewing_store (sstep b) renewable (fun s t => sget t (st_tokens s)).
Proof.
  constructor.
  - intros s t k s' _ H. destruct (find_refresh_any _ _ _ _ _ H) as [(t' & x & _ & X & E)|X]; [injection E as <-; exact X|].
    assert (Y : forall o a, sstep b s o a s' -> match o as o0 return ans o0 -> Prop with
       | OFindByRefresh t => fun a => forall k, a = (Some k, None) -> ot_refresh k = t | _ => fun _ => True end a).
    { clear. intros o a H. destruct H; try exact I; try (destruct o; try exact I; discriminate).
      all: intros kk E; try discriminate E. injection E as <-. assumption. }
    exact (Y _ _ H _ eq_refl).
  - intros s i old k s' _ Ho Hne H. rewrite (refresh_again _ _ _ _ _ _ H _ Ho). exact Hne.
Qed.
