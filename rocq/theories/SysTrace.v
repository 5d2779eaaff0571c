(** * Where redeemed codes come from, and crashes. *)
From Coq Require Import Lia.
From Verif Require Import Hoare WpTac Core World Spec TokenSpec OAuthError Assertion Grants TokenEndpoint GrantFacts TokenFacts
  TokenProofs LogFacts TokenMore ResourceProtector ResourceSpec ResourceFacts AuthzResponse AuthzEndpoint AuthzSpec
  AuthzProofs AuthzMore SysSpec SysFacts.

(** ** Prefixes of runs of the entry points *)

Lemma exec_done {A} (p : prog A) tr x : exec (done p) tr x -> exists y, exec p tr y.
Proof.
  unfold done. intros H. apply exec_bind in H. destruct H as [(t1 & t2 & a & H1 & H2 & ->)|[H1 _]]; [|eauto].
  apply exec_inv in H2. destruct H2 as [-> _]. rewrite app_nil_r. eauto.
Qed.

(* every event of a prefix is performed by a complete run, after the same events *)
Lemma steps_done {A} (p : prog A) tr q : steps (done p) tr q -> exists t x, exec p (tr ++ t)%list x.
Proof.
  intros H. destruct (steps_prefix _ _ _ H) as (t & x & He). destruct (exec_done _ _ _ He) as [y Hy]. eauto.
Qed.

Lemma performs_prefix tr t1 o a t2 t : tr = (t1 ++ Ev o a :: t2)%list -> performs (tr ++ t) t1 o.
Proof. intros ->. exists a, (t2 ++ t)%list. rewrite <- app_assoc. reflexivity. Qed.

Lemma token_no_session J te r tr x i y a : only_bundled J te -> exec (token_handler J te r) tr x ->
  ~ In (Ev (OCreateSession i y) a) tr.
Proof.
  intros HB He HI. apply in_split in HI. destruct HI as (t1 & t2 & E).
  destruct (granted_event _ _ _ _ _ _ _ _ _ He E eq_refl) as (h & c & now & th & z & t & t' & H1 & H2 & H3 & H4).
  destruct (registered_bundled _ _ _ _ HB H1).
  - exact (exec_guard _ _ _ _ _ _ _ _ _ (authorization_code_wp _ _ _ _) H3 H4).
  - exact (exec_guard _ _ _ _ _ _ _ _ _ (refresh_token_wp _ _ _) H3 H4).
  - exact (exec_guard _ _ _ _ _ _ _ _ _ (password_grant_wp _ _ _) H3 H4).
  - exact (exec_guard _ _ _ _ _ _ _ _ _ (client_credentials_wp _ _ _) H3 H4).
  - exact (proj1 (exec_guard _ _ _ _ _ _ _ _ _ (jwt_grant_wp _ _ _ _) H3 H4)).
Qed.

(* DisableSession is called by the code grant alone *)
Lemma token_disable J te r tr x sess a t1 t2 : only_bundled J te -> exec (token_handler J te r) tr x ->
  tr = (t1 ++ Ev (ODisable sess) a :: t2)%list ->
  exists c now th info tok,
    registered te (form_value r "grant_type") (authorization_code J) /\
    serving J te r t1 c now th /\ code_checks r c sess info /\
    data_calls th = (found_calls r sess info ++ [Ev (OCreateToken (Some info) true) (Some tok, None)])%list.
Proof.
  intros HB He E.
  destruct (granted_event _ _ _ _ _ _ _ _ _ He E eq_refl) as (h & c & now & th & z & t & t' & H1 & H2 & H3 & H4).
  destruct (registered_bundled _ _ _ _ HB H1).
  - destruct (exec_guard _ _ _ _ _ _ _ _ _ (authorization_code_wp _ _ _ _) H3 H4) as (info & tok & HC & HD).
    exists c, now, t, info, tok. auto.
  - destruct (exec_guard _ _ _ _ _ _ _ _ _ (refresh_token_wp _ _ _) H3 H4).
  - destruct (exec_guard _ _ _ _ _ _ _ _ _ (password_grant_wp _ _ _) H3 H4).
  - destruct (exec_guard _ _ _ _ _ _ _ _ _ (client_credentials_wp _ _ _) H3 H4).
  - destruct (proj1 (exec_guard _ _ _ _ _ _ _ _ _ (jwt_grant_wp _ _ _ _) H3 H4)).
Qed.

Lemma goidc_disable p past q sess a t1 t2 : goidc p -> steps p past q ->
  past = (t1 ++ Ev (ODisable sess) a :: t2)%list ->
  exists J te r c now th info tok,
    p = token_handler J te r /\ only_bundled J te /\
    registered te (form_value r "grant_type") (authorization_code J) /\
    serving J te r t1 c now th /\ code_checks r c sess info /\
    data_calls th = (found_calls r sess info ++ [Ev (OCreateToken (Some info) true) (Some tok, None)])%list.
Proof.
  intros HG HS E. destruct HG as [J te r HB|E0 pol r|E0 pol|E0|rp r|rp r m].
  - destruct (steps_prefix _ _ _ HS) as (t & x & He).
    assert (E' : (past ++ t = t1 ++ Ev (ODisable sess) a :: (t2 ++ t))%list) by (rewrite E, <- app_assoc; reflexivity).
    destruct (token_disable _ _ _ _ _ _ _ _ _ HB He E') as (c & now & th & info & tok & H).
    exists J, te, r, c, now, th, info, tok. tauto.
  - exfalso. destruct (steps_done _ _ _ HS) as (t & x & He).
    exact (handle_performs _ _ _ _ _ _ _ He (performs_prefix _ _ _ _ _ t E)).
  - exfalso. destruct (steps_done _ _ _ HS) as (t & x & He). rewrite E, <- app_assoc in He.
    exact (wp_guard _ _ _ _ _ t1 (Ev (ODisable sess) a) (t2 ++ t) (complete_request_wp E0 pol) He eq_refl).
  - exfalso. destruct (steps_done _ _ _ HS) as (t & x & He). rewrite E, <- app_assoc in He.
    destruct (wp_guard _ _ _ _ _ t1 (Ev (ODisable sess) a) (t2 ++ t) (cancel_request_wp E0) He eq_refl) as [X|X]; [discriminate|exact X].
  - exfalso. destruct (steps_done _ _ _ HS) as (t & x & He). apply validate_reads in He.
    specialize (He (Ev (ODisable sess) a)). rewrite E in He. discriminate He. apply in_or_app. left. apply in_or_app. simpl. auto.
  - exfalso. destruct (steps_done _ _ _ HS) as (t & x & He). apply scopes_reads in He.
    specialize (He (Ev (ODisable sess) a)). rewrite E in He. discriminate He. apply in_or_app. left. apply in_or_app. simpl. auto.
Qed.

(** ** C11 *)

Lemma rsteps_flip {S} (W : rworld S) (live : S -> bool) s (p : prog unit) tr q s' :
  rsteps W s p tr q s' -> live s = true -> live s' = false ->
  exists t1 o a t2 q1 sA sB, tr = (t1 ++ Ev o a :: t2)%list /\ rsteps W s p t1 q1 sA /\ W sA o a sB /\
    live sA = true /\ live sB = false.
Proof.
  induction 1 as [s p|s o k x s1 tr q s2 HW HR IH]; intros H1 H2; [congruence|].
  destruct (live s1) eqn:E.
  - destruct (IH eq_refl H2) as (t1 & o' & a & t2 & q1 & sA & sB & -> & R & HA & HB).
    exists (Ev o x :: t1), o', a, t2, q1, sA, sB. split; [reflexivity|]. split; [econstructor; eauto|auto].
  - exists [], o, x, tr, (Vis o k), s, s1. split; [reflexivity|]. split; [constructor|auto].
Qed.

Lemma disabled_after_token {S} (W : rworld S) ok live s p past q s' code :
  code_store W ok live -> durable W ok live -> ok s -> goidc p ->
  rsteps W s p past q s' -> live s code = true -> live s' code = false ->
  exists J te r c now ta info tok sess a t1 t2 t3,
    p = token_handler J te r /\ authenticated J te r c ta /\ code_checks r c sess info /\
    form_value r "code" = code /\
    past = (ta ++ Ev ONow now :: t1 ++ Ev (OCreateToken (Some info) true) (Some tok, None) ::
            t2 ++ Ev (ODisable sess) a :: t3)%list.
Proof.
  intros L HD HO HG HR H1 H2.
  destruct (rsteps_flip W (fun x => live x code) _ _ _ _ _ HR H1 H2) as (u1 & o & a & u2 & q1 & sA & sB & E & R & HW & HA & HB).
  pose proof (rsteps_ok _ _ _ L _ _ _ _ _ R HO) as HOA.
  destruct (HD _ _ _ _ _ HOA HW HA HB) as (sess & -> & HC).
  destruct (goidc_disable _ _ _ _ _ _ _ HG (rsteps_steps _ _ _ _ _ _ HR) E)
    as (J & te & r & c & now & th & info & tok & Hp & HBu & HRg & (ta & HAu & Hu) & HCk & Hdc).
  assert (HT : In (Ev (OCreateToken (Some info) true) (Some tok, None)) th).
  { apply data_in. rewrite Hdc. apply in_or_app. simpl. auto. }
  assert (HF : In (Ev (OFindSession (form_value r "code")) (Some sess, None)) u1).
  { rewrite Hu. apply in_or_app. right. right. apply (proj1 (found_in _ _ _ _ _ Hdc)). }
  assert (HCode : form_value r "code" = code).
  { rewrite <- HC. apply in_split in HF. destruct HF as (v1 & v2 & EF). rewrite EF in R.
    destruct (rsteps_split _ _ _ _ _ _ _ R) as (q2 & s2 & R1 & R2). apply rsteps_inv in R2.
    destruct R2 as (q3 & s3 & HW2 & _). symmetry.
    exact (proj2 (law_find _ _ _ L _ _ _ _ (rsteps_ok _ _ _ L _ _ _ _ _ R1 HO) HW2)). }
  apply in_split in HT. destruct HT as (t1 & t2 & ET).
  exists J, te, r, c, now, ta, info, tok, sess, a, t1, t2, u2.
  split; [exact Hp|]. split; [exact HAu|]. split; [exact HCk|]. split; [exact HCode|].
  rewrite E, Hu, ET. rewrite <- app_assoc. cbn [app]. rewrite <- app_assoc. reflexivity.
Qed.

(** ** C53 *)

Lemma goidc_session p past q i y a : goidc p -> steps p past q -> In (Ev (OCreateSession i y) a) past ->
  exists pol rq t1, session_for pol rq y t1 /\
    ((exists E, p = done (complete_request E pol) /\ recorded rq i t1) \/
     (exists E r c info, i = Some info /\ p = done (handle_request E pol r) /\ approved r c t1 /\
        validated pol r c rq /\ consent_on_record pol rq info t1)) /\
    exists t2, past = (t1 ++ t2)%list.
Proof.
  intros HG HS HI. apply in_split in HI. destruct HI as (t1 & t2 & E).
  destruct HG as [J te r HB|E0 pol r|E0 pol|E0|rp r|rp r m].
  - exfalso. destruct (steps_prefix _ _ _ HS) as (t & x & He).
    apply (token_no_session _ _ _ _ _ i y a HB He). rewrite E, <- app_assoc. apply in_or_app. simpl. auto.
  - destruct (steps_done _ _ _ HS) as (t & x & He).
    destruct (handle_issue _ _ _ _ _ _ _ He (performs_prefix _ _ _ _ _ t E) eq_refl)
      as (c & rq & info & HA & HV & HM & _ & Hi & HSf).
    exists pol, rq, t1. split; [exact HSf|]. split; [|rewrite E; eauto].
    right. exists E0, r, c, info. destruct HM as [HM _]. auto.
  - destruct (steps_done _ _ _ HS) as (t & x & He). rewrite E, <- app_assoc in He.
    destruct (wp_guard _ _ _ _ _ t1 (Ev (OCreateSession i y) a) (t2 ++ t) (complete_request_wp E0 pol) He eq_refl) as (rq & HR & HSf).
    exists pol, rq, t1. split; [exact HSf|]. split; [|rewrite E; eauto]. left. eauto.
  - exfalso. destruct (steps_done _ _ _ HS) as (t & x & He). rewrite E, <- app_assoc in He.
    destruct (wp_guard _ _ _ _ _ t1 (Ev (OCreateSession i y) a) (t2 ++ t) (cancel_request_wp E0) He eq_refl) as [X|X]; [discriminate|exact X].
  - exfalso. destruct (steps_done _ _ _ HS) as (t & x & He). apply validate_reads in He.
    specialize (He (Ev (OCreateSession i y) a)). rewrite E in He. discriminate He. apply in_or_app. left. apply in_or_app. simpl. auto.
  - exfalso. destruct (steps_done _ _ _ HS) as (t & x & He). apply scopes_reads in He.
    specialize (He (Ev (OCreateSession i y) a)). rewrite E in He. discriminate He. apply in_or_app. left. apply in_or_app. simpl. auto.
Qed.

(* the authorization an event tells about, with what it tells *)
Inductive tells : event -> authinfo -> Prop :=
| t_active id i : tells (Ev (OFindActiveInfo id) (Some i, None)) i
| t_info uid cid i : tells (Ev (OFindInfo uid cid) (Some i, None)) i
| t_create uid cid scope i : tells (Ev (OCreateInfo uid cid scope) (Some i, None)) i.

Section Linked.
  Context {S : Type} (W : rworld S) (ok : S -> Prop) (sess : S -> string -> option authsession)
          (auth : S -> Z -> option authinfo).
  Hypothesis L : linked_store W ok sess auth.

  Definition stored_by (code : string) (x : authsession) (e : event) : Prop :=
    exists i y, e = Ev (OCreateSession (Some i) y) None /\ s_code y = code /\
      as_auth_id x = ai_id i /\ as_redirect x = s_redirect y /\ as_verifier x = s_verifier y.

  Definition facts (s : S) (code : string) (evs : list event) : Prop :=
    (forall x, sess s code = Some x -> exists e, In e evs /\ stored_by code x e) /\
    (forall x, In (Ev (OFindSession code) (Some x, None)) evs -> exists e, In e evs /\ stored_by code x e) /\
    (forall e i, In e evs -> tells e i -> exists i', auth s (ai_id i) = Some i' /\ same_grant i i') /\
    (forall uid cid scope i, In (Ev (OCreateInfo uid cid scope) (Some i, None)) evs -> ai_user i = uid /\ ai_client i = cid) /\
    (forall uid cid i, In (Ev (OFindInfo uid cid) (Some i, None)) evs -> ai_user i = uid /\ ai_client i = cid) /\
    (forall id i, In (Ev (OFindActiveInfo id) (Some i, None)) evs -> ai_id i = id).

  Lemma wev_eq s o a s' e : W s o a s' -> Ev o a = e -> wev W s e s'.
  Proof. intros H <-. exact H. Qed.

  Lemma facts_step s o a s' code evs evs' : ok s -> W s o a s' ->
    (forall e, In e evs' <-> In e evs \/ e = Ev o a) -> facts s code evs -> facts s' code evs'.
  Proof.
    intros HO HW HE (F1 & F2 & F3 & F4 & F5 & F6).
    assert (UP : forall x, (exists e, In e evs /\ stored_by code x e) -> exists e, In e evs' /\ stored_by code x e).
    { intros x (e & H1 & H2). exists e. split; [apply HE; auto|exact H2]. }
    assert (SG : forall i i' i'', same_grant i i' -> same_grant i' i'' -> same_grant i i'').
    { unfold same_grant. intuition congruence. }
    split; [|split; [|split; [|split; [|split]]]].
    - intros x HX. destruct (ll_stored _ _ _ _ L _ _ _ _ _ _ HO HW HX) as [H|(i & y & E & H)]; [auto|].
      exists (Ev o a). split; [apply HE; auto|]. exists i, y. auto.
    - intros x HX. apply HE in HX. destruct HX as [HX|HX]; [auto|]. apply UP, F1.
      exact (ll_find _ _ _ _ L _ _ _ _ HO (wev_eq _ _ _ _ _ HW (eq_sym HX))).
    - intros e i HX HT. apply HE in HX. destruct HX as [HX|HX].
      + destruct (F3 e i HX HT) as (i1 & A1 & A2). destruct (ll_auth _ _ _ _ L _ _ _ _ _ _ HO HW A1) as (i2 & B1 & B2).
        exists i2. split; [exact B1|]. eapply SG; eauto.
      + pose proof (wev_eq _ _ _ _ _ HW (eq_sym HX)) as HV. destruct HT as [id i|uid cid i|uid cid scope i]; simpl in HV.
        * destruct (ll_active _ _ _ _ L _ _ _ _ HO HV) as [A1 A2]. rewrite <- A2 in A1.
          exact (ll_auth _ _ _ _ L _ _ _ _ _ _ HO HV A1).
        * destruct (ll_info _ _ _ _ L _ _ _ _ _ HO HV) as [A1 _].
          exact (ll_auth _ _ _ _ L _ _ _ _ _ _ HO HV A1).
        * destruct (ll_create _ _ _ _ L _ _ _ _ _ _ HO HV) as [A1 _]. exists i. split; [exact A1|split; reflexivity].
    - intros uid cid scope i HX. apply HE in HX. destruct HX as [HX|HX]; [eauto|].
      pose proof (wev_eq _ _ _ _ _ HW (eq_sym HX)) as HV. exact (proj2 (ll_create _ _ _ _ L _ _ _ _ _ _ HO HV)).
    - intros uid cid i HX. apply HE in HX. destruct HX as [HX|HX]; [eauto|].
      pose proof (wev_eq _ _ _ _ _ HW (eq_sym HX)) as HV. exact (proj2 (ll_info _ _ _ _ L _ _ _ _ _ HO HV)).
    - intros id i HX. apply HE in HX. destruct HX as [HX|HX]; [eauto|].
      pose proof (wev_eq _ _ _ _ _ HW (eq_sym HX)) as HV. exact (proj2 (ll_active _ _ _ _ L _ _ _ _ HO HV)).
  Qed.

  Lemma facts_psteps c0 c code : psteps W c0 c -> forall s0 progs, c0 = (s0, map start progs) -> ok s0 ->
    sess s0 code = None ->
    ok (fst c) /\
    Forall2 (fun (p : prog unit) th => steps p (th_past th) (th_rest th)) progs (snd c) /\
    facts (fst c) code (all_events (snd c)).
  Proof.
    assert (SA : forall (p : prog unit) tr o k x, steps p tr (Vis o k) -> steps p (tr ++ [Ev o x]) (k x)).
    { intros p tr o k x H. remember (Vis o k) as q eqn:E. induction H as [q|o0 k0 x0 tr p' H IH].
      - subst. simpl. repeat constructor.
      - simpl. constructor. auto. }
    induction 1 as [c|c1 c2 c3 H1 IH H2]; intros s0 progs E HO HN.
    - subst. cbn [fst snd]. split; [exact HO|]. split.
      + clear. induction progs as [|p l IH]; constructor; [constructor|exact IH].
      + assert (X : @all_events unit (map start progs) = []).
        { clear. induction progs as [|p l IH]; [reflexivity|exact IH]. }
        rewrite X. split; [intros x Hx; congruence|]. repeat split; intros; try contradiction.
    - destruct (IH s0 progs E HO HN) as (I1 & I2 & I3). clear IH.
      destruct H2 as [s s' before past o k x after HW]. cbn [fst snd] in *. split; [eapply ll_ok; eauto|]. split.
      + apply Forall2_app_inv_r in I2. destruct I2 as (l1 & l2 & F1 & F2 & ->).
        inversion F2 as [|p th l2' after' HS HF]; subst. apply Forall2_app; [exact F1|]. constructor; [|exact HF].
        simpl in *. apply SA. exact HS.
      + eapply facts_step; [exact I1|exact HW| |exact I3]. intros e. unfold all_events.
        rewrite !flat_map_app. cbn [flat_map th_past]. rewrite !in_app_iff. simpl. intuition.
  Qed.

  Lemma forall2_nth {A B} (R : A -> B -> Prop) l l' n b : Forall2 R l l' -> nth_error l' n = Some b ->
    exists a, nth_error l n = Some a /\ R a b.
  Proof.
    intros H. revert n. induction H as [|x y l l' HR HF IH]; intros [|n] E; try discriminate; simpl in *.
    - injection E as ->. eauto.
    - eauto.
  Qed.

  Lemma redeemed_traced s0 progs s ths n J te r th :
    psteps W (s0, map start progs) (s, ths) -> ok s0 -> sess s0 (form_value r "code") = None -> Forall goidc progs ->
    only_bundled J te -> registered te (form_value r "grant_type") (authorization_code J) ->
    nth_error progs n = Some (token_handler J te r) -> nth_error ths n = Some th ->
    In 200%Z (statuses (th_past th)) ->
    exists c ta info tok m p th',
      authenticated J te r c ta /\ (exists rest, th_past th = (ta ++ rest)%list) /\
      In (Ev (OCreateToken (Some info) true) (Some tok, None)) (th_past th) /\
      nth_error progs m = Some p /\ nth_error ths m = Some th' /\ traced r c info p (th_past th').
  Proof.
    intros HP HO HN HG HB HR Hn Hth H200.
    destruct (facts_psteps _ _ (form_value r "code") HP _ _ eq_refl HO HN) as (_ & HS & F1 & F2 & F3 & F4 & F5 & F6).
    cbn [fst snd] in *.
    destruct (forall2_nth _ _ _ _ _ HS Hth) as (p0 & E0 & HSt). rewrite Hn in E0. injection E0 as <-.
    destruct (redeemed_calls _ _ _ _ _ HB HR HSt H200)
      as (c & now & x & info & tok & ta & tg & rest & HA & HPa & Hrest & HCk & more & Hdc & Hmore).
    assert (HIn : forall e, In e (data_calls tg) -> In e (th_past th)).
    { intros e He. rewrite HPa. apply in_or_app. right. right. apply in_or_app. left. apply data_in. exact He. }
    assert (HAll : forall m th' e, nth_error ths m = Some th' -> In e (th_past th') -> In e (all_events ths)).
    { intros m th' e H1 H2. unfold all_events. apply in_flat_map. exists th'. split; [eapply nth_error_In; eauto|exact H2]. }
    destruct (F2 x) as (e & He & i & y & -> & Y1 & Y2 & Y3 & Y4).
    { eapply HAll; [exact Hth|]. apply HIn. rewrite Hdc. simpl. auto. }
    unfold all_events in He. apply in_flat_map in He. destruct He as (th' & Hth' & He).
    apply In_nth_error in Hth'. destruct Hth' as [m Hm].
    destruct (forall2_nth _ _ _ _ _ HS Hm) as (p & Ep & HStp).
    assert (HGp : goidc p) by (eapply Forall_forall; [exact HG|eapply nth_error_In; eauto]).
    destruct (goidc_session _ _ _ _ _ _ HGp HStp He) as (pol & rq & t1 & HSf & HWho & t2 & Ht).
    assert (UpA : forall e, In e t1 -> In e (th_past th')) by (intros; rewrite Ht; apply in_or_app; auto).
    (* what both runs know about the authorization *)
    assert (HI : In (Ev (OFindActiveInfo (as_auth_id x)) (Some info, None)) (all_events ths)).
    { eapply HAll; [exact Hth|]. apply HIn. rewrite Hdc. simpl. auto. }
    pose proof (F6 _ _ HI) as Hid. rewrite Y2 in Hid.
    destruct (F3 _ _ HI ltac:(constructor)) as (j & J1 & J2).
    assert (SAME : forall e, In e (th_past th') -> tells e i -> ai_user i = ai_user info /\ ai_client i = ai_client info).
    { intros e' He' HT. destruct (F3 _ _ (HAll _ _ _ Hm He') HT) as (j' & J3 & J4). rewrite <- Hid in J3.
      rewrite J1 in J3. injection J3 as <-. destruct J2, J4. split; congruence. }
    destruct HCk as (_ & _ & K1 & K2 & K3).
    destruct HSf as (pre & code & at_ & Hpre & ->). cbn in Y1, Y3, Y4.
    rewrite Y3 in K2. rewrite Y4 in K3.
    exists c, ta, info, tok, m, p, th'.
    split; [exact HA|]. split; [exists (Ev ONow now :: tg ++ rest)%list; exact HPa|].
    split; [apply HIn; rewrite Hdc; simpl; auto|]. split; [exact Ep|]. split; [exact Hm|].
    exists pol, rq, i, (ASession (rq_redirect rq) code (p_session_expires pol) (rq_verifier rq) (rq_nonce rq) at_).
    split; [exact He|]. split; [exact Y1|].
    destruct HWho as [(E & -> & uid & rs & Hrec)|(E & r' & c' & info' & Hi & -> & HAp & HV & HC)].
    - assert (X : In (Ev (OCreateInfo uid (rq_client rq) (rq_scope rq)) (Some i, None)) (th_past th')).
      { apply UpA. rewrite Hrec. simpl. auto. }
      destruct (F4 _ _ _ _ (HAll _ _ _ Hm X)) as [U1 U2]. destruct (SAME _ X ltac:(constructor)) as [V1 V2].
      split; [congruence|]. split; [exact K2|]. split; [exact K3|].
      assert (EU : uid = ai_user info) by congruence. rewrite <- EU.
      split; [apply UpA; rewrite Hrec; simpl; auto|]. left. exists E. split; [reflexivity|].
      split; [apply UpA; rewrite Hrec; simpl; auto|exact X].
    - injection Hi as <-. destruct HC as (uid & now' & (a & b & Hseg) & HC).
      assert (X : In (Ev (OFindInfo uid (rq_client rq)) (Some i, None)) (th_past th')).
      { apply UpA. rewrite Hseg. apply in_or_app. right. simpl. auto. }
      destruct (F5 _ _ _ (HAll _ _ _ Hm X)) as [U1 U2]. destruct (SAME _ X ltac:(constructor)) as [V1 V2].
      split; [congruence|]. split; [exact K2|]. split; [exact K3|].
      assert (EU : uid = ai_user info) by congruence. rewrite <- EU.
      split; [apply UpA; rewrite Hseg; apply in_or_app; right; simpl; auto|]. right. exists E, r', c'.
      split; [reflexivity|]. split.
      { destruct HAp as (A1 & A2 & A3 & e' & rs & -> & A4). split; [exact A1|]. split; [exact A2|]. split; [exact A3|].
        exists e', (rs ++ t2)%list. split; [rewrite Ht; reflexivity|exact A4]. }
      split; [exact HV|]. exists uid, now'. split; [|exact HC].
      exists a, (b ++ t2)%list. rewrite Ht, Hseg. rewrite <- !app_assoc. reflexivity.
  Qed.
End Linked.
