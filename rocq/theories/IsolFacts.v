(** * Clients do not disturb each other. *)
From Coq Require Import Lia.
From Verif Require Import Hoare WpTac Core World Spec TokenSpec OAuthError Assertion Grants TokenEndpoint GrantFacts TokenFacts
  TokenProofs LogFacts TokenMore ResourceProtector ResourceSpec ResourceFacts AuthzResponse AuthzEndpoint AuthzSpec
  AuthzProofs AuthzMore SysSpec SysFacts SysTrace JsonParse JsonFacts TestStore StoreFacts TraceSpec TraceFacts IsolSpec.

Lemma signed_more J te r c t1 t2 : signed_in J te r c t1 -> signed_in J te r c (t1 ++ t2).
Proof.
  intros (ta & now & rest & H & ->). exists ta, now, (rest ++ t2)%list. split; [exact H|].
  rewrite <- app_assoc. reflexivity.
Qed.
Lemma acts_more cid p t1 t2 : acts_for cid p t1 -> acts_for cid p (t1 ++ t2).
Proof.
  intros [J te r c H1 H2 H3|E pol q H1 H2 H3|E pol r H1 H2].
  - eapply af_token; eauto. apply signed_more. exact H2.
  - eapply af_complete; eauto. apply in_or_app. auto.
  - eapply af_authorize; eauto.
Qed.

Lemma agreed_acts p past uid cid scope : agreed p past uid cid scope -> acts_for cid p past.
Proof.
  intros H. destruct H.
  - eapply af_token; eauto.
  - eapply af_token; eauto.
  - eapply af_token; eauto.
  - eapply af_complete; eauto.
Qed.
Lemma granted_acts p past uid cid : granted p past uid cid -> acts_for cid p past.
Proof.
  intros [(scope & H)|(E & pol & r & c & q & i & H1 & _ & H3 & _ & _ & H6)].
  - eapply agreed_acts; eauto.
  - eapply af_authorize; [exact H1|]. rewrite <- (v_client _ _ _ _ H3). exact H6.
Qed.

(** ** Whose authorization a run works on *)

Definition works_on (past : list event) (info : authinfo) (cid : string) : Prop :=
  ai_client info = cid \/ exists uid, knows past info uid cid.

Lemma serving_signed J te r t1 c now th t2 : serving J te r t1 c now th -> signed_in J te r c (t1 ++ t2).
Proof. intros (ta & H & ->). apply signed_more. exists ta, now, th. auto. Qed.

Lemma create_token_owner p past q info b a : goidc p -> steps p past q ->
  In (Ev (OCreateToken (Some info) b) a) past ->
  exists cid, acts_for cid p past /\ works_on past info cid.
Proof.
  intros HG HS HI. pose proof HI as HI0.
  assert (K : (exists uid cid, granted p past uid cid /\ knows past info uid cid) ->
              exists cid, acts_for cid p past /\ works_on past info cid).
  { intros (uid & cid & H1 & H2). exists cid. split; [eapply granted_acts; eauto|]. right. eauto. }
  destruct HG as [J te r HB|E0 pol r|E0 pol|E0|rp r|rp r m].
  - destruct (steps_prefix _ _ _ HS) as (t & x & He). apply in_split in HI. destruct HI as (t1 & t2 & E).
    assert (E' : (past ++ t = t1 ++ Ev (OCreateToken (Some info) b) a :: (t2 ++ t))%list) by (rewrite E, <- app_assoc; reflexivity).
    destruct (granted_event _ _ _ _ _ _ _ _ _ He E' eq_refl) as (h & c & now & th & z & t0 & t' & H1 & H2 & H3 & H4).
    destruct (registered_bundled _ _ _ _ HB H1) as [ | | | | ].
    + destruct (exec_guard _ _ _ _ _ _ _ _ _ (authorization_code_wp _ _ _ _) H3 H4) as (sess & i & Hi & _ & HC & _).
      injection Hi as <-. destruct HC as (_ & _ & HC & _). exists (c_id c). split; [|left; exact HC].
      eapply af_token; [reflexivity| |reflexivity]. rewrite E. eapply serving_signed; eauto.
    + destruct (exec_guard _ _ _ _ _ _ _ _ _ (refresh_token_wp _ _ _) H3 H4).
    + destruct (exec_guard _ _ _ _ _ _ _ _ _ (password_grant_wp _ _ _) H3 H4) as (h0 & uid & i & K1 & K2 & K3 & K4 & K5).
      exists (c_id c). split.
      * eapply af_token; [reflexivity| |reflexivity]. rewrite E. eapply serving_signed; eauto.
      * right. exists uid. left. exists (form_value r "scope"). destruct H2 as (ta & _ & Ht). rewrite E, Ht.
        apply in_or_app. left. apply in_or_app. right. right. apply in_calls.
        assert (i = info) as -> by congruence. rewrite K5. apply in_or_app. simpl. auto.
    + destruct (exec_guard _ _ _ _ _ _ _ _ _ (client_credentials_wp _ _ _) H3 H4) as (h0 & uid & i & K1 & K2 & K3 & K4 & K5).
      exists (c_id c). split.
      * eapply af_token; [reflexivity| |reflexivity]. rewrite E. eapply serving_signed; eauto.
      * right. exists uid. left. exists (form_value r "scope"). destruct H2 as (ta & _ & Ht). rewrite E, Ht.
        apply in_or_app. left. apply in_or_app. right. right. apply in_calls.
        assert (i = info) as -> by congruence. rewrite K5. apply in_or_app. simpl. auto.
    + destruct (proj1 (exec_guard _ _ _ _ _ _ _ _ _ (jwt_grant_wp _ _ _ _) H3 H4)) as (h0 & uid & i & K1 & K2 & K3 & K4 & K5).
      exists (c_id c). split.
      * eapply af_token; [reflexivity| |reflexivity]. rewrite E. eapply serving_signed; eauto.
      * right. exists uid. left. exists (form_value r "scope"). destruct H2 as (ta & _ & Ht). rewrite E, Ht.
        apply in_or_app. left. apply in_or_app. right. right. apply in_calls.
        assert (i = info) as -> by congruence. rewrite K5. apply in_or_app. simpl. auto.
  - apply K. destruct (steps_done _ _ _ HS) as (t & x & He). apply in_split in HI. destruct HI as (t1 & t2 & E).
    destruct (handle_issue _ _ _ _ _ _ _ He (performs_prefix _ _ _ _ _ t E) eq_refl)
      as (c & rq & i & HA & HV & HM & _ & Hi & HSf). injection Hi as <-. destruct HM as [HM _].
    rewrite E. eapply record_granted; eauto.
  - apply K. destruct (steps_done _ _ _ HS) as (t & x & He). apply in_split in HI. destruct HI as (t1 & t2 & E).
    rewrite E, <- app_assoc in He.
    destruct (wp_guard _ _ _ _ _ t1 (Ev (OCreateToken (Some info) b) a) (t2 ++ t) (complete_request_wp E0 pol) He eq_refl) as (rq & HR & HSf).
    rewrite E. eapply recorded_granted; eauto.
  - destruct (goidc_create_token _ _ _ _ _ _ (g_cancel E0) HS HI0) as [(code & x & H1 & H2)|H]; [|auto].
    exfalso. destruct (steps_done _ _ _ HS) as (t & y & He). apply in_split in H1. destruct H1 as (t1 & t2 & E).
    rewrite E, <- app_assoc in He.
    destruct (wp_guard _ _ _ _ _ t1 (Ev (OFindSession code) (Some x, None)) (t2 ++ t) (cancel_request_wp E0) He eq_refl) as [X|X]; [discriminate|exact X].
  - exfalso. destruct (steps_done _ _ _ HS) as (t & x & He). apply validate_reads in He.
    specialize (He (Ev (OCreateToken (Some info) b) a)). discriminate He. apply in_or_app. left. exact HI.
  - exfalso. destruct (steps_done _ _ _ HS) as (t & x & He). apply scopes_reads in He.
    specialize (He (Ev (OCreateToken (Some info) b) a)). discriminate He. apply in_or_app. left. exact HI.
Qed.

Lemma refresh_owner p past q info old a : goidc p -> steps p past q ->
  In (Ev (ORefresh info old) a) past -> acts_for (ai_client info) p past.
Proof.
  intros HG HS HI. pose proof HI as HI0. apply in_split in HI. destruct HI as (t1 & t2 & E).
  destruct HG as [J te r HB|E0 pol r|E0 pol|E0|rp r|rp r m].
  - destruct (steps_prefix _ _ _ HS) as (t & x & He).
    assert (E' : (past ++ t = t1 ++ Ev (ORefresh info old) a :: (t2 ++ t))%list) by (rewrite E, <- app_assoc; reflexivity).
    destruct (granted_event _ _ _ _ _ _ _ _ _ He E' eq_refl) as (h & c & now & th & z & t0 & t' & H1 & H2 & H3 & H4).
    destruct (registered_bundled _ _ _ _ HB H1).
    + destruct (exec_guard _ _ _ _ _ _ _ _ _ (authorization_code_wp _ _ _ _) H3 H4).
    + destruct (exec_guard _ _ _ _ _ _ _ _ _ (refresh_token_wp _ _ _) H3 H4) as ((_ & _ & HC & _) & _).
      eapply af_token; [reflexivity| |symmetry; exact HC]. rewrite E. eapply serving_signed; eauto.
    + destruct (exec_guard _ _ _ _ _ _ _ _ _ (password_grant_wp _ _ _) H3 H4).
    + destruct (exec_guard _ _ _ _ _ _ _ _ _ (client_credentials_wp _ _ _) H3 H4).
    + destruct (proj1 (exec_guard _ _ _ _ _ _ _ _ _ (jwt_grant_wp _ _ _ _) H3 H4)).
  - exfalso. destruct (steps_done _ _ _ HS) as (t & x & He).
    exact (handle_performs _ _ _ _ _ _ _ He (performs_prefix _ _ _ _ _ t E)).
  - exfalso. destruct (steps_done _ _ _ HS) as (t & x & He). rewrite E, <- app_assoc in He.
    exact (wp_guard _ _ _ _ _ t1 (Ev (ORefresh info old) a) (t2 ++ t) (complete_request_wp E0 pol) He eq_refl).
  - exfalso. destruct (steps_done _ _ _ HS) as (t & x & He). rewrite E, <- app_assoc in He.
    destruct (wp_guard _ _ _ _ _ t1 (Ev (ORefresh info old) a) (t2 ++ t) (cancel_request_wp E0) He eq_refl) as [X|X]; [discriminate|exact X].
  - exfalso. destruct (steps_done _ _ _ HS) as (t & x & He). apply validate_reads in He.
    specialize (He (Ev (ORefresh info old) a)). discriminate He. apply in_or_app. left. exact HI0.
  - exfalso. destruct (steps_done _ _ _ HS) as (t & x & He). apply scopes_reads in He.
    specialize (He (Ev (ORefresh info old) a)). discriminate He. apply in_or_app. left. exact HI0.
Qed.

Lemma disable_owner p past q x a : goidc p -> steps p past q ->
  In (Ev (ODisable x) a) past ->
  exists code info, acts_for (ai_client info) p past /\ In (Ev (OFindSession code) (Some x, None)) past /\
    In (Ev (OFindActiveInfo (as_auth_id x)) (Some info, None)) past.
Proof.
  intros HG HS HI. apply in_split in HI. destruct HI as (t1 & t2 & E).
  destruct (goidc_disable _ _ _ _ _ _ _ HG HS E) as (J & te & r & c & now & th & info & tok & -> & HB & _ & HSv & HC & HD).
  exists (form_value r "code"), info. split; [|].
  - destruct HC as (_ & _ & HC & _). eapply af_token; [reflexivity| |symmetry; exact HC]. rewrite E. eapply serving_signed; eauto.
  - destruct (found_in _ _ _ _ _ HD) as [F1 F2]. destruct HSv as (ta & _ & Ht). rewrite E, Ht.
    split; apply in_or_app; left; apply in_or_app; right; right; assumption.
Qed.

(** ** Interleavings *)
Section Isolation.
  Context {S : Type} (W : rworld S) (ok : S -> Prop) (sess : S -> string -> option authsession)
          (auth : S -> Z -> option authinfo) (tok : S -> string -> option oauthtoken) (genuine : oauthtoken -> Prop).
  Hypothesis L : linked_store W ok sess auth.
  Hypothesis P : separate_store W ok sess auth tok genuine.

  Lemma forall2_len {A B} (R : A -> B -> Prop) l l' : Forall2 R l l' -> length l = length l'.
  Proof. induction 1; simpl; congruence. Qed.

  Definition quiet (cid : string) (progs : list (prog unit)) (ths : list (thread unit)) : Prop :=
    forall n p th, nth_error progs n = Some p -> nth_error ths n = Some th -> ~ acts_for cid p (th_past th).

  Lemma quiet_back cid l1 p l2 before past past' q q' (after : list (thread unit)) e : length l1 = length before ->
    past' = (past ++ [e])%list ->
    quiet cid (l1 ++ p :: l2) (before ++ Thread past' q' :: after) ->
    quiet cid (l1 ++ p :: l2) (before ++ Thread past q :: after) /\ ~ acts_for cid p past'.
  Proof.
    intros HL -> HQ. split.
    - intros n p' th H1 H2 HA.
      destruct (lt_eq_lt_dec n (length before)) as [[HN|HN]|HN].
      + apply (HQ n p' th); auto. rewrite nth_error_app1 in * by lia. exact H2.
      + subst n. rewrite nth_error_app2, Nat.sub_diag in H2 by lia. injection H2 as <-.
        eapply (HQ (length before)); [exact H1| |].
        * rewrite nth_error_app2, Nat.sub_diag by lia. reflexivity.
        * simpl in *. apply acts_more. exact HA.
      + apply (HQ n p' th); auto. rewrite nth_error_app2 in * by lia.
        destruct (n - length before)%nat eqn:En; [lia|]. exact H2.
    - intros HA. apply (HQ (length before) p (Thread (past ++ [e]) q')); [| |exact HA].
      + rewrite nth_error_app2 by lia. rewrite HL, Nat.sub_diag. reflexivity.
      + rewrite nth_error_app2, Nat.sub_diag by lia. reflexivity.
  Qed.

  (* the tokens that were found are genuine; sessions that were found have their codes *)
  Definition seen (evs : list event) : Prop :=
    (forall t k, In (Ev (OFindByRefresh t) (Some k, None)) evs -> genuine k) /\
    (forall code x, In (Ev (OFindSession code) (Some x, None)) evs -> as_code x = code).

  Definition kept (cid : string) (s0 s : S) (evs : list event) : Prop :=
    forall id i, auth s0 id = Some i -> ai_client i = cid ->
      auth s id = Some i /\
      (forall t k, tok s0 t = Some k -> ot_auth_id k = id -> tok s t = Some k) /\
      (forall code x, sess s0 code = Some x -> as_auth_id x = id ->
         (forall e, In e evs -> stores code (ev_op e) = false) ->
         sess s code = Some x /\ forall y, In (Ev (OFindSession code) (Some y, None)) evs -> y = x).

  Lemma seen_psteps (c0 c : S * list (thread unit)) : psteps W c0 c -> forall s0 progs, c0 = (s0, map start progs) -> ok s0 ->
    seen (all_events (snd c)).
  Proof.
    induction 1 as [c|c1 c2 c3 H1 IH H2]; intros s0 progs E HO.
    - subst. cbn [fst snd]. rewrite all_start. split; intros; contradiction.
    - destruct (told_psteps W ok sess auth L _ _ H1 _ _ E HO) as (I1 & _ & _).
      pose proof (IH _ _ E HO) as [S1 S2]. clear IH.
      destruct H2 as [s s' before past o k x after HW]. cbn [fst snd] in *.
      assert (HE : forall e, In e (all_events (before ++ Thread (past ++ [Ev o x]) (k x) :: after)) ->
                In e (all_events (before ++ Thread past (Vis o k) :: after)) \/ e = Ev o x).
      { intros e. unfold all_events. rewrite !flat_map_app. cbn [flat_map th_past]. rewrite !in_app_iff. simpl. intuition. }
      split.
      + intros t kk HX. apply HE in HX. destruct HX as [HX|HX]; [eauto|].
        exact (sp_genuine _ _ _ _ _ _ P _ _ _ _ I1 (wev_eq W _ _ _ _ _ HW (eq_sym HX))).
      + intros code y HX. apply HE in HX. destruct HX as [HX|HX]; [eauto|].
        exact (sp_code _ _ _ _ _ _ P _ _ _ _ I1 (wev_eq W _ _ _ _ _ HW (eq_sym HX))).
  Qed.

  (* a step of a thread that does not act for [cid] *)
  Lemma quiet_step s0 progs s before past o k x after s' p cid :
    psteps W (s0, map start progs) (s, before ++ Thread past (Vis o k) :: after)%list -> ok s0 -> Forall goidc progs ->
    W s o x s' -> nth_error progs (length before) = Some p -> ~ acts_for cid p (past ++ [Ev o x]) ->
    forall id i, auth s id = Some i -> ai_client i = cid ->
      auth s' id = Some i /\ (forall t kk, tok s t = Some kk -> ot_auth_id kk = id -> tok s' t = Some kk) /\
      (forall y a, Ev o x = Ev (ODisable y) a -> as_auth_id y <> id).
  Proof.
    intros H1 HO HG HW Hp HN id i K1 Hc.
    destruct (told_psteps W ok sess auth L _ _ H1 _ _ eq_refl HO) as (I1 & I2 & I3).
    pose proof (seen_psteps _ _ H1 _ _ eq_refl HO) as HSeen. cbn [fst snd] in *.
    pose proof I2 as I2'. apply Forall2_app_inv_r in I2. destruct I2 as (l1 & l2 & F1 & F2 & Hl).
    inversion F2 as [|p' th l2' after' HS HF]; subst. simpl in HS.
    assert (p' = p) as ->.
    { rewrite nth_error_app2, (forall2_len _ _ _ F1), Nat.sub_diag in Hp by (rewrite (forall2_len _ _ _ F1); lia).
      injection Hp as ->. reflexivity. }
    assert (HGp : goidc p). { apply Forall_app in HG. destruct HG as [_ HG]. inversion HG. assumption. }
    set (old_evs := all_events (before ++ Thread past (Vis o k) :: after)) in *.
    assert (HP : forall e, In e past -> In e old_evs).
    { intros e He. unfold old_evs, all_events. rewrite flat_map_app. apply in_or_app. right. simpl. apply in_or_app. auto. }
    pose proof (steps_snoc _ _ _ _ x HS) as HS'.
    assert (HIn : In (Ev o x) (past ++ [Ev o x])) by (apply in_or_app; simpl; auto).
    destruct I3 as (T1 & T2 & T3 & T4).
    (* an authorization of [cid] that the run has been told about *)
    assert (OWN : forall e j, In e old_evs -> tells e j -> forall i, auth s (ai_id j) = Some i -> ai_client j = ai_client i).
    { intros e j He Ht i' Hi. destruct (T1 _ _ He Ht) as (i'' & A1 & A2 & _). rewrite Hi in A1. injection A1 as <-. exact A2. }
    assert (KNOW : forall j uid cid', knows (past ++ [Ev o x]) j uid cid' ->
              (forall uid cid' scope j, Ev o x <> Ev (OCreateInfo uid cid' scope) (Some j, None)) ->
              (forall uid cid' j, Ev o x <> Ev (OFindInfo uid cid') (Some j, None)) ->
              forall i, auth s (ai_id j) = Some i -> ai_client i = cid').
    { intros j uid cid' [(scope & HKn)|[HKn _]] N1 N2 i' Hi; apply in_app_or in HKn; destruct HKn as [HKn|[HKn|[]]].
      - rewrite <- (OWN _ _ (HP _ HKn) (t_create _ _ _ _) _ Hi). exact (proj2 (T2 _ _ _ _ (HP _ HKn))).
      - destruct (N1 _ _ _ _ HKn).
      - rewrite <- (OWN _ _ (HP _ HKn) (t_info _ _ _) _ Hi). exact (proj2 (T3 _ _ _ (HP _ HKn))).
      - destruct (N2 _ _ _ HKn). }
    split; [|split].
    + destruct (sp_info _ _ _ _ _ _ P _ _ _ _ _ _ I1 HW K1) as [H|(uid & cid' & scope & j & Ee & Hj)]; [exact H|].
      exfalso. apply HN. rewrite Ee in HIn.
      assert (ec : ai_client j = cid').
      { exact (proj2 (proj2 (ll_create _ _ _ _ L _ _ _ _ _ _ I1 (wev_eq W _ _ _ _ _ HW Ee)))). }
      destruct (ll_auth _ _ _ _ L _ _ _ _ _ _ I1 HW K1) as (i' & A1 & A2 & _).
      pose proof (proj1 (ll_create _ _ _ _ L _ _ _ _ _ _ I1 (wev_eq W _ _ _ _ _ HW Ee))) as A3.
      rewrite Hj, A1 in A3. injection A3 as ->.
      assert (cid' = ai_client i) as <- by congruence.
      rewrite Ee in HS' |- *. eapply agreed_acts, goidc_create_info; [exact HGp|exact HS'|exact HIn].
    + intros t kk K2 Hk.
      destruct (sp_token _ _ _ _ _ _ P _ _ _ _ _ _ I1 HW K2) as [H|[(j & b & -> & Hj)|(j & old & -> & Hj)]]; [exact H| |]; exfalso; apply HN.
      * destruct (create_token_owner _ _ _ _ _ _ HGp HS' HIn) as (cid' & A1 & A2).
        assert (EC : cid' = ai_client i); [|rewrite <- EC; exact A1].
        rewrite Hk in Hj.
        destruct A2 as [A2|(uid & A2)].
        -- (* the code grant: the authorization was looked up *)
           destruct (goidc_create_token _ _ _ _ _ _ HGp HS' HIn) as [(code & y & B1 & B2)|(uid & cid'' & B1 & B2)].
           ++ apply in_app_or in B2. destruct B2 as [B2|[B2|[]]]; [|discriminate].
              rewrite <- A2. eapply OWN; [apply HP; exact B2|constructor|]. rewrite Hj. exact K1.
           ++ rewrite <- A2. destruct B2 as [(scope & B2)|[B2 _]]; apply in_app_or in B2; destruct B2 as [B2|[B2|[]]]; try discriminate.
              ** eapply OWN; [apply HP; exact B2|constructor|]. rewrite Hj. exact K1.
              ** eapply OWN; [apply HP; exact B2|constructor|]. rewrite Hj. exact K1.
        -- symmetry. eapply KNOW; [exact A2|discriminate|discriminate|]. rewrite Hj. exact K1.
      * destruct (goidc_refresh _ _ _ _ _ _ HGp HS' HIn) as ((t' & B1) & B2).
        apply in_app_or in B1. destruct B1 as [B1|[B1|[]]]; [|discriminate].
        apply in_app_or in B2. destruct B2 as [B2|[B2|[]]]; [|discriminate].
        specialize (Hj (proj1 HSeen _ _ (HP _ B1))). pose proof (T4 _ _ (HP _ B2)) as Hid.
        assert (EC : ai_client j = ai_client i).
        { eapply OWN; [apply HP; exact B2|constructor|]. rewrite Hid, Hj, Hk. exact K1. }
        rewrite <- EC. eapply refresh_owner; eauto.
    + intros y a Ee Hid. apply HN. rewrite Ee in HS', HIn |- *.
      destruct (disable_owner _ _ _ _ _ HGp HS' HIn) as (code' & info & A1 & A2 & A3).
      apply in_app_or in A3. destruct A3 as [A3|[A3|[]]]; [|discriminate].
      pose proof (T4 _ _ (HP _ A3)) as Hj.
      assert (EC : ai_client info = ai_client i).
      { eapply OWN; [apply HP; exact A3|constructor|]. rewrite Hj, Hid. exact K1. }
      rewrite <- EC. exact A1.
  Qed.

  Lemma isolated c0 c cid : psteps W c0 c -> forall s0 progs, c0 = (s0, map start progs) -> ok s0 ->
    Forall goidc progs -> quiet cid progs (snd c) ->
    kept cid s0 (fst c) (all_events (snd c)).
  Proof.
    induction 1 as [c|c1 c2 c3 H1 IH H2]; intros s0 progs E HO HG HQ.
    - subst. cbn [fst snd]. rewrite all_start.
      intros id i Hi _. split; [exact Hi|]. split; [auto|]. intros. split; [auto|]. intros y [].
    - destruct (told_psteps W ok sess auth L _ _ H1 _ _ E HO) as (I1 & I2 & _).
      pose proof (seen_psteps _ _ H1 _ _ E HO) as HSeen. subst c1.
      destruct H2 as [s s' before past o k x after HW]. cbn [fst snd] in *.
      apply Forall2_app_inv_r in I2. destruct I2 as (l1 & l2 & F1 & F2 & Hl).
      inversion F2 as [|p th l2' after' HS HF]; subst. simpl in HS.
      destruct (quiet_back cid l1 p l2' before past _ (Vis o k) (k x) after (Ev o x) (forall2_len _ _ _ F1) eq_refl HQ) as [HQ' HN].
      pose proof (IH s0 (l1 ++ p :: l2')%list eq_refl HO HG HQ') as HK. clear IH.
      set (old_evs := all_events (before ++ Thread past (Vis o k) :: after)) in *.
      assert (HE : forall e, In e (all_events (before ++ Thread (past ++ [Ev o x]) (k x) :: after)) <-> In e old_evs \/ e = Ev o x).
      { intros e. unfold old_evs, all_events. rewrite !flat_map_app. cbn [flat_map th_past]. rewrite !in_app_iff. simpl. intuition. }
      assert (HP : forall e, In e past -> In e old_evs).
      { intros e He. unfold old_evs, all_events. rewrite flat_map_app. apply in_or_app. right. simpl. apply in_or_app. auto. }
      assert (Hnth : nth_error (l1 ++ p :: l2')%list (length before) = Some p).
      { rewrite nth_error_app2, <- (forall2_len _ _ _ F1), Nat.sub_diag by (rewrite <- (forall2_len _ _ _ F1); lia). reflexivity. }
      intros id i Hi Hc. destruct (HK id i Hi Hc) as (K1 & K2 & K3).
      destruct (quiet_step _ _ _ _ _ _ _ _ _ _ _ _ H1 HO HG HW Hnth HN id i K1 Hc) as (Q1 & Q2 & Q3).
      split; [exact Q1|]. split; [intros t kk Ht Hk; apply Q2; auto|].
      intros code y Hy Hid Hst.
      assert (Hst' : forall e, In e old_evs -> stores code (ev_op e) = false) by (intros e He; apply Hst, HE; auto).
      destruct (K3 code y Hy Hid Hst') as [K4 K5]. split.
      + destruct (sp_session _ _ _ _ _ _ P _ _ _ _ _ _ I1 HW K4) as [H|[H|(z & -> & Hz)]]; [exact H| |].
        * assert (X : stores code (ev_op (Ev o x)) = false) by (apply Hst, HE; auto). simpl in X. congruence.
        * exfalso. apply (Q3 z x eq_refl). rewrite <- Hid. f_equal. apply K5.
          assert (HGp : goidc p). { apply Forall_app in HG. destruct HG as [_ HG]. inversion HG. assumption. }
          assert (HIn : In (Ev (ODisable z) x) (past ++ [Ev (ODisable z) x])) by (apply in_or_app; simpl; auto).
          destruct (disable_owner _ _ _ _ _ HGp (steps_snoc _ _ _ _ x HS) HIn) as (code' & info & _ & A2 & _).
          apply in_app_or in A2. destruct A2 as [A2|[A2|[]]]; [|discriminate].
          pose proof (proj2 HSeen _ _ (HP _ A2)) as Ez. assert (code' = code) as -> by congruence. apply HP, A2.
      + intros z Hz. apply HE in Hz. destruct Hz as [Hz|Hz]; [eauto|].
        pose proof (ll_find _ _ _ _ L _ _ _ _ I1 (wev_eq W _ _ _ _ _ HW (eq_sym Hz))) as HF'. rewrite K4 in HF'. congruence.
  Qed.
End Isolation.

(** ** The bundled store *)

Fixpoint rounds (n : nat) : string := match n with O => "" | Datatypes.S n => ":R" ++ rounds n end.

(** The access token of authorization [id] after [n] refreshes. *)
Definition genuine_token (k : oauthtoken) : Prop :=
  exists n, ot_access k = "ACCESS_TOKEN_" ++ itoa (ot_auth_id k) ++ rounds n.

Lemma itoa_inj z z' : itoa z = itoa z' -> z = z'.
Proof.
  destruct (itoa_form z) as (d & D1 & D2), (itoa_form z') as (d' & D1' & D2'). intros E.
  destruct (plain_first d D1) as (a & r & Ed & Ea), (plain_first d' D1') as (a' & r' & Ed' & Ea').
  destruct D2 as [(H1 & H2 & H3)|(H1 & H2 & H3)], D2' as [(H1' & H2' & H3')|(H1' & H2' & H3')]; rewrite H2, H2' in E.
  - congruence.
  - exfalso. rewrite Ed in E. injection E as -> _. discriminate.
  - exfalso. rewrite Ed' in E. injection E as <- _. discriminate.
  - injection E as E. subst d'. assert (X : Some (- z)%Z = Some (- z')%Z) by congruence. injection X as X. lia.
Qed.

Fixpoint no_colon (s : string) : bool :=
  match s with EmptyString => true | String a r => (negb (Ascii.eqb a ":") && no_colon r)%bool end.

Lemma plain_no_colon d : Forall (fun a => is_digit a = true) (list_ascii_of_string d) -> no_colon d = true.
Proof.
  induction d as [|a d IH]; simpl; intros H; [reflexivity|]. inversion H as [|? ? H1 H2]; subst. rewrite (IH H2).
  destruct (Ascii.eqb_spec a ":") as [->|]; [discriminate|reflexivity].
Qed.
Lemma itoa_no_colon z : no_colon (itoa z) = true.
Proof.
  destruct (itoa_form z) as (d & [D1 _] & [(_ & -> & _)|(_ & -> & _)]); [|simpl]; apply plain_no_colon; exact D1.
Qed.
Lemma colon_split a b x y : no_colon a = true -> no_colon b = true ->
  (x = "" \/ exists r, x = String ":" r) -> (y = "" \/ exists r, y = String ":" r) -> a ++ x = b ++ y -> a = b.
Proof.
  revert b. induction a as [|c a IH]; intros [|d b] Ha Hb Hx Hy E; simpl in *.
  - reflexivity.
  - destruct Hx as [->|[r ->]]; [discriminate|]. injection E as <- _. discriminate.
  - destruct Hy as [->|[r ->]]; [discriminate|]. injection E as -> _. discriminate.
  - injection E as -> E. apply andb_true_iff in Ha, Hb. destruct Ha, Hb. f_equal. eapply IH; eauto.
Qed.
Lemma rounds_form n : rounds n = "" \/ exists r, rounds n = String ":" r.
Proof. destruct n; simpl; eauto. Qed.
Lemma rounds_more n : rounds n ++ ":R" = rounds (Datatypes.S n).
Proof. induction n as [|n IH]; [reflexivity|]. simpl in *. rewrite IH. reflexivity. Qed.

Lemma genuine_same k k' : genuine_token k -> genuine_token k' -> ot_access k = ot_access k' -> ot_auth_id k = ot_auth_id k'.
Proof.
  intros [n H] [m H'] E. rewrite H, H' in E. apply app_inj_l in E. apply itoa_inj.
  eapply colon_split; [apply itoa_no_colon|apply itoa_no_colon|apply rounds_form|apply rounds_form|exact E].
Qed.

(** Every token is stored under its own name, made by the store. *)
Definition tidiest (s : store) : Prop :=
  tidier s /\ forall t k, In (t, k) (st_tokens s) -> t = ot_access k /\ genuine_token k.

Lemma tidiest_step b s o a s' : tidiest s -> sstep b s o a s' -> tidiest s'.
Proof.
  intros [H1 H2] H. split; [eapply tidier_step; eauto|]. destruct H; try exact H2; cbn [set_tokens st_tokens].
  - intros t k HI. destruct HI as [HI|HI].
    + injection HI as <- <-. split; [reflexivity|]. exists 0%nat. cbn [rounds]. rewrite app_nil_r_s. reflexivity.
    + apply (in_adel seqb seqb_eq) in HI. destruct HI. auto.
  - intros t' k HI. destruct HI as [HI|HI].
    + injection HI as <- <-. split; [reflexivity|]. apply (aget_in seqb seqb_eq) in H. destruct (H2 _ _ H) as [_ [n Hn]].
      exists (Datatypes.S n). subst new. cbn [ot_access ot_auth_id]. rewrite Hn, !app_assoc_s, rounds_more. reflexivity.
    + apply (in_adel seqb seqb_eq) in HI. destruct HI as [HI _]. apply (in_adel seqb seqb_eq) in HI. destruct HI. auto.
Qed.

Lemma bundled_linked3 b :
  linked_store (sstep b) tidiest (fun s code => sget code (st_sessions s)) (fun s id => zget id (st_infos s)).
Proof.
  destruct (bundled_linked2 b) as [L0 L1 L2 L3 L4 L5 L6]. constructor.
  - intros s o a s'. apply tidiest_step.
  - intros s code x s' [HT _]. apply L1. exact HT.
  - intros s o a s' code x [HT _]. apply L2. exact HT.
  - intros s id i s' [HT _]. apply L3. exact HT.
  - intros s uid cid i s' [HT _]. apply L4. exact HT.
  - intros s uid cid scope i s' [HT _]. apply L5. exact HT.
  - intros s o a s' id i [HT _]. apply L6. exact HT.
Qed.

Lemma bundled_separate b : separate_store (sstep b) tidiest (fun s code => sget code (st_sessions s))
  (fun s id => zget id (st_infos s)) (fun s t => sget t (st_tokens s)) genuine_token.
Proof.
  constructor.
  - intros s o a s' id i [[(_ & T2 & _) _] _] H HX. destruct H; try (left; exact HX); cbn [set_infos st_infos];
      unfold zget at 1; rewrite zget_aput.
    + destruct (Z.eqb_spec id id0) as [->|]; [|left; exact HX].
      right. exists uid, cid, scope, i'. split; [reflexivity|]. exact (proj1 (T2 _ _ H)).
    + destruct (Z.eqb_spec id (st_next_info s)) as [->|]; [|left; exact HX].
      right. exists uid, cid, scope, i'. split; reflexivity.
  - intros s o a s' t k [_ HT] H HX. pose proof (HT _ _ (aget_in seqb seqb_eq _ _ _ HX)) as [Et Gk].
    destruct H; try (left; exact HX); cbn [set_tokens st_tokens]; unfold sget at 1; rewrite sget_aput.
    + destruct (seqb t (ot_access (created_token i t1 t2))) eqn:E; [|left; exact HX].
      apply seqb_eq in E. right. left. exists i, b0. split; [reflexivity|].
      change (ai_id i) with (ot_auth_id (created_token i t1 t2)). apply genuine_same; [|exact Gk|congruence].
      exists 0%nat. cbn [rounds]. rewrite app_nil_r_s. reflexivity.
    + pose proof (HT _ _ (aget_in seqb seqb_eq _ _ _ H)) as [Ex Gx].
      assert (D : seqb t (ot_access new) = true \/ seqb t (ot_access old) = true \/
                  (seqb t (ot_access new) = false /\ seqb t (ot_access old) = false))
        by (destruct (seqb t (ot_access new)), (seqb t (ot_access old)); auto).
      destruct D as [D|[D|[D1 D2]]].
      * right. right. exists i, old. split; [reflexivity|]. intros Go. apply seqb_eq in D.
        transitivity (ot_auth_id x); [apply genuine_same; [exact Go|exact Gx|congruence]|].
        change (ot_auth_id x) with (ot_auth_id new). apply genuine_same; [|exact Gk|congruence].
        destruct Gx as [n Hn]. exists (Datatypes.S n). subst new. cbn [ot_access ot_auth_id].
        rewrite Hn, !app_assoc_s, rounds_more. reflexivity.
      * right. right. exists i, old. split; [reflexivity|]. intros Go. apply seqb_eq in D.
        apply genuine_same; [exact Go|exact Gk|congruence].
      * left. rewrite D1, sget_adel, D2. exact HX.
  - intros s t k s' [_ HT] H. destruct (find_refresh_step _ _ _ _ _ H) as (t' & HI & _). exact (proj2 (HT _ _ HI)).
  - intros s o a s' code x [[HT _] _] H HX. rewrite (session_step _ _ _ _ _ _ HT H).
    destruct o; try (left; exact HX).
    + destruct i as [i|]; [|left; exact HX]. unfold stores. destruct (seqb code (s_code s0)) eqn:E; [|left; exact HX].
      right. left. apply seqb_eq in E. subst. apply String.eqb_refl.
    + destruct (seqb code (as_code s0)) eqn:E; [|left; exact HX]. right. right. exists s0.
      apply seqb_eq in E. auto.
  - intros s code x s' [[HT _] _] H. pose proof (sstep_reading _ _ _ _ _ HT H) as [_ E].
    destruct (sget code (st_sessions s)) as [y|] eqn:E1; [|discriminate]. injection E as <-.
    exact (proj1 HT _ _ E1).
Qed.
