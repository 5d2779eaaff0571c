(** * ID tokens of both endpoints: proofs. *)
From Coq Require Import Lia.
From Verif Require Import Hoare WpTac Core World Spec TokenSpec OAuthError Assertion Grants TokenEndpoint GrantFacts TokenFacts
  TokenProofs LogFacts TokenMore ResourceProtector ResourceSpec ResourceFacts AuthzResponse AuthzEndpoint AuthzSpec
  AuthzFacts AuthzDecide AuthzValidate AuthzProofs AuthzMore SysSpec SysFacts SysTrace FlowSpec ReasonFacts BoundSpec Bound BoundAuthz AgreeSpec.

(* at most one session is stored *)
Lemma one_session tr i y a i' y' a' : (times makes_session tr <= 1)%nat ->
  In (Ev (OCreateSession i y) a) tr -> In (Ev (OCreateSession i' y') a') tr -> i = i' /\ y = y'.
Proof.
  intros HT H1 H2. unfold times in HT.
  assert (K1 : In (Ev (OCreateSession i y) a) (filter (fun e => makes_session (ev_op e)) tr)) by (apply filter_In; auto).
  assert (K2 : In (Ev (OCreateSession i' y') a') (filter (fun e => makes_session (ev_op e)) tr)) by (apply filter_In; auto).
  destruct (filter _ tr) as [|e [|e' l]]; simpl in *; [contradiction| |lia].
  destruct K1 as [K1|[]]. destruct K2 as [K2|[]]. rewrite K1 in K2. apply (f_equal ev_op) in K2. injection K2 as -> ->. auto.
Qed.


(** ** HandleRequest stores sessions in its last stage only *)
Section Ends.
  Variables (E : env) (pol : policy) (req : arequest).
  Inductive ends : prog bool -> Prop :=
  | ends_quiet p : most makes_session 0 p -> ends p
  | ends_last info : ends (complete E pol (Some info) req)
  | ends_vis o k : makes_session o = false -> is_http o = false -> (forall x, ends (k x)) -> ends (Vis o k).

  Lemma ends_exec p : ends p -> forall tr b, exec p tr (Done b) ->
    times makes_session tr = 0%nat \/
    exists info pre tc, tr = (pre ++ tc)%list /\ http_ops pre = [] /\ times makes_session pre = 0%nat /\
      exec (complete E pol (Some info) req) tc (Done b).
  Proof.
    induction 1 as [p H|info|o k H1 H2 H3 IH]; intros tr b He.
    - left. pose proof (most_exec _ _ _ _ _ H He). lia.
    - right. exists info, [], tr. auto.
    - apply exec_inv in He. destruct He as (x & tr' & -> & He). destruct (IH x _ _ He) as [H|(info & pre & tc & -> & P1 & P2 & P3)].
      + left. unfold times in *. simpl. rewrite H1. exact H.
      + right. exists info, (Ev o x :: pre), tc. split; [reflexivity|]. unfold http_ops, times in *. simpl. rewrite H1, H2. auto.
  Qed.
End Ends.

Ltac quiet := apply ends_quiet; authz.
Ltac estep :=
  lazymatch goal with
  | |- ends _ _ _ (answer_error _ _ _ _) => quiet
  | |- ends _ _ _ (callback_failed _ _ _) => quiet
  | |- ends _ _ _ (complete _ _ _ _) => apply ends_last
  | |- ends _ _ _ (Ret _) => apply ends_quiet; exact I
  | |- ends _ _ _ Panic => apply ends_quiet; exact I
  | |- ends _ _ _ (Vis _ _) => apply ends_vis; [reflexivity|reflexivity|let x := fresh "x" in intros x; cbn beta]
  | |- ends _ _ _ (bind (consent_reusable _ _ _) _) => unfold consent_reusable
  | |- ends _ _ _ (match (if ?b then _ else _) with _ => _ end) => destruct b
  | |- ends _ _ _ ?p =>
      let q := head p in
      lazymatch q with
      | Ret _ => cbn [bind]
      | Panic => cbn [bind]
      | Vis _ _ => cbn [bind]
      | call _ => unfold call; cbn [bind]
      | logm _ _ _ => unfold logm, call; cbn [bind]
      | match ?x with _ => _ end => destruct x; cbn [negb fst snd]
      end
  end.
Lemma after_ends E pol c req mas : ends E pol req (hr_after E pol c req mas).
Proof.
  assert (HT : ends E pol req (none_tail E pol req)) by (unfold none_tail; cbv zeta; repeat estep).
  assert (HC : ends E pol req (hr_consent E pol c req)) by (unfold hr_consent, show_consent; cbv zeta; repeat estep).
  assert (HM : ends E pol req (hr_login E pol c req mas)).
  { unfold hr_login, hr_max_age; cbv zeta.
    repeat lazymatch goal with |- ends _ _ _ (hr_consent _ _ _ _) => exact HC | _ => estep end. }
  unfold hr_after, hr_none, hr_session, none_session, none_match, jwt_parse; cbv zeta.
  repeat lazymatch goal with
  | |- ends _ _ _ (none_tail _ _ _) => exact HT
  | |- ends _ _ _ (hr_login _ _ _ _ _) => exact HM
  | _ => estep end.
Qed.

Lemma times_none tr e : times makes_session tr = 0%nat -> In e tr -> makes_session (ev_op e) = false.
Proof. intros H. apply count_none. exact H. Qed.

Lemma handle_sessions E pol r tr i y a : exec (handle_request E pol r) tr (Done true) ->
  In (Ev (OCreateSession i y) a) tr ->
  exists c q info pre tc, validated pol r c q /\ tr = (pre ++ tc)%list /\ http_ops pre = [] /\
    times makes_session pre = 0%nat /\ completed E pol (Some info) q tc.
Proof.
  intros He HI.
  assert (NO : forall A (p : prog A) t x, most makes_session 0 p -> exec p t x -> times makes_session t = 0%nat).
  { intros A p t x H1 H2. pose proof (most_exec _ _ _ _ _ H1 H2). lia. }
  unfold handle_request in He. apply exec_bind in He.
  destruct He as [(t1 & tr1 & oc & H1 & He & ->)|[_ He]]; [|discriminate].
  pose proof (NO _ _ _ _ (client_session r) H1) as N1.
  apply (wp_exec _ _ _ _ _ (hr_client_wp r)) in H1.
  destruct oc as [[[c cid] ruri]|]; unfold client_post in H1.
  2: { apply exec_inv in He. destruct He as [-> Hb]. discriminate Hb. }
  destruct H1 as (-> & -> & HA & HH1).
  cbv zeta in He. apply exec_bind in He. destruct He as [(t2 & tr2 & om & H2 & He & ->)|[_ He]]; [|discriminate].
  pose proof (NO _ _ _ _ (mode_session E pol r _ _) H2) as N2.
  pose proof (wp_exec _ _ _ _ _ (hr_mode_wp E pol r _ _) H2) as H2a.
  destruct om as [[[f rmode] rt]|]; unfold mode_post in *.
  2: { apply exec_inv in He. destruct He as [-> Hb]. discriminate Hb. }
  destruct H2a as (HH2 & -> & HF & HM).
  apply exec_bind in He. destruct He as [(t3 & tr3 & oq & H3 & He & ->)|[_ He]]; [|discriminate].
  pose proof (NO _ _ _ _ (params_session E pol r c _ _ _ f rmode _) H3) as N3.
  pose proof (wp_exec _ _ _ _ _ (hr_params_wp E pol r c f rmode HF HM (proj1 (proj2 (proj2 HA)))) H3) as H3a.
  destruct oq as [q|]; unfold params_post in *.
  2: { apply exec_inv in He. destruct He as [-> Hb]. discriminate Hb. }
  destruct H3a as (HH3 & HV & HQF & HQM).
  assert (N : times makes_session (t1 ++ t2 ++ t3) = 0%nat) by (rewrite !count_app; lia).
  assert (HH : http_ops (t1 ++ t2 ++ t3)%list = []) by (rewrite !http_ops_app, HH1, HH2, HH3; reflexivity).
  destruct (ends_exec _ _ _ _ (after_ends E pol c q _) _ _ He) as [H|(info & pre & tc & -> & P1 & P2 & P3)].
  - exfalso. assert (X : times makes_session (t1 ++ t2 ++ t3 ++ tr3) = 0%nat) by (rewrite !count_app in *; lia).
    pose proof (times_none _ _ X HI) as K. discriminate K.
  - pose proof (wp_exec _ _ _ _ _ (complete_wp E pol (Some info) q) P3) as HC. unfold complete_post in HC.
    exists c, q, info, (t1 ++ t2 ++ t3 ++ pre)%list, tc. rewrite <- !app_assoc. split; [exact HV|]. split; [reflexivity|].
    rewrite !app_assoc, http_ops_app, count_app, <- !app_assoc, HH, P1, P2, N. split; [reflexivity|]. split; [reflexivity|].
    exact HC.
Qed.

(* a completed run that stored a session for the code *)
Lemma completed_agrees E pol inf i q tc past pre y code c sub :
  completed E pol inf q tc -> past = (pre ++ tc)%list -> http_ops pre = [] -> times makes_session pre = 0%nat ->
  (times makes_session past <= 1)%nat ->
  In (Ev (OCreateSession (Some i) y) None) past -> s_code y = code ->
  (inf = Some i -> rq_client q = c_id c) -> ai_client i = c_id c -> ai_subject i = sub ->
  exists params, answered (rq_mode q) (rq_redirect q) params past /\ In ("code", code) params /\
    s_nonce y = rq_nonce q /\ In (Ev OAuthTime (Some (s_auth_time y))) past /\
    forall idt, In ("id_token", idt) params ->
      exists iss, In (Ev OIssuer iss) past /\ agrees E c code iss sub (rq_nonce q) (s_auth_time y) past idt.
Proof.
  intros HC -> HP HP0 HT HY Hcode Hq Hcl Hsub.
  assert (IN : forall e, In e tc -> In e (pre ++ tc)) by (intros; apply in_or_app; auto).
  destruct HC as [f cd at_ params ta H1 H2 [HN HH] H4
    |f clnt tok idt at_ tt_ ti params ta H1 H2 HTM HIM [HN HH] H4
    |f clnt tok idt cd at_ tt_ ti params ta H1 H2 HTM HIM [HN HH] H4].
  - destruct (one_session _ _ _ _ inf (ASession (rq_redirect q) cd (p_session_expires pol) (rq_verifier q) (rq_nonce q) at_) None HT HY) as [<- ->].
    { apply IN. unfold session_stored. simpl. auto. }
    specialize (Hq eq_refl). cbn in Hcode. subst cd. exists params. split; [|split; [apply HH; simpl; auto|split; [reflexivity|split]]].
    + exists (pre ++ session_stored pol (Some i) q code at_)%list, ta. rewrite app_assoc. split; [reflexivity|]. split; [|exact H4].
      rewrite http_ops_app, HP. reflexivity.
    + apply IN. unfold session_stored. simpl. auto.
    + intros idt HI. apply HH in HI. simpl in HI. destruct HI as [HI|[HI|[]]]; discriminate HI.
  - exfalso.
    assert (NS : forall e, In e ([Ev (OFindClient (rq_client q)) (clnt, None)] ++ tt_ ++ [Ev OAuthTime (Some at_)] ++ ti ++ ta) ->
      makes_session (ev_op e) = false).
    { intros e He. rewrite !in_app_iff in He. simpl in He.
      destruct He as [[<-|[]]|[He|[[<-|[]]|[He|He]]]]; try reflexivity.
      - destruct HTM; simpl in He; [contradiction|]. destruct He as [<-|[]]. reflexivity.
      - destruct HIM; simpl in He; [contradiction|]. destruct He as [<-|[<-|[]]]; reflexivity.
      - destruct H4; simpl in He; intuition (subst; reflexivity). }
    apply in_app_or in HY. destruct HY as [HY|HY].
    + pose proof (times_none _ _ HP0 HY) as K. discriminate K.
    + pose proof (NS _ HY) as K. discriminate K.
  - destruct (one_session _ _ _ _ inf (ASession (rq_redirect q) cd (p_session_expires pol) (rq_verifier q) (rq_nonce q) at_) None HT HY) as [<- ->].
    { apply IN. unfold session_stored. simpl. auto. }
    specialize (Hq eq_refl). cbn in Hcode. subst cd. exists params. split; [|split; [apply HH; simpl; auto|split; [reflexivity|split]]].
    + exists (pre ++ session_stored pol (Some i) q code at_ ++ [Ev (OFindClient (rq_client q)) (clnt, None)] ++ tt_ ++ ti)%list, ta.
      split; [rewrite <- !app_assoc; reflexivity|]. split; [|exact H4].
      rewrite !http_ops_app, HP. destruct HTM, HIM; reflexivity.
    + apply IN. unfold session_stored. simpl. auto.
    + intros idt' HI. apply HH in HI. assert (idt = Some idt').
      { rewrite !in_app_iff in HI. simpl in HI. destruct HI as [[HI|[HI|[HI|[]]]]|[HI|[HI|[]]]]; try discriminate HI.
        - destruct HTM; simpl in HI; intuition discriminate.
        - injection HI as ->. reflexivity. }
      subst idt. inversion HIM as [|i' c' iss now cs ah ch t EI EC HA1 HA2 HCs HSg Eb Et El]. subst.
      injection EI as <-. exists iss. split; [apply IN; rewrite !in_app_iff; right; right; right; left; simpl; auto|].
      cbn [hash_claim] in HA2. destruct HA2 as (hh & HL & ->).
      exists c', cs, (add64 now (p_idt_expires pol)), now, ah, (rfc4648_std hh).
      rewrite Hcl in HCs. rewrite Hq in *.
      split; [apply IN; rewrite !in_app_iff; right; left; simpl; auto|]. split; [exact HCs|]. split; [exact HSg|].
      exists hh. auto.
Qed.

(** ** Runs over a data layer that keeps its promises *)
Section Steady.
  Context {S : Type} (W : rworld S) (ok : S -> Prop) (sess : S -> string -> option authsession)
          (auth : S -> Z -> option authinfo).
  Hypothesis L : linked_store W ok sess auth.
  Hypothesis T : steady_store W ok sess auth.

  Definition kept_by (code : string) (x : authsession) (e : event) : Prop :=
    exists i y, e = Ev (OCreateSession (Some i) y) None /\ s_code y = code /\
      as_auth_id x = ai_id i /\ as_redirect x = s_redirect y /\ as_verifier x = s_verifier y /\
      as_nonce x = s_nonce y /\ as_auth_time x = s_auth_time y.

  Definition steady_facts (s : S) (code : string) (evs : list event) : Prop :=
    (forall x, sess s code = Some x -> exists e, In e evs /\ kept_by code x e) /\
    (forall x, In (Ev (OFindSession code) (Some x, None)) evs -> exists e, In e evs /\ kept_by code x e) /\
    (forall e i, In e evs -> tells e i -> exists i', auth s (ai_id i) = Some i' /\ ai_subject i = ai_subject i') /\
    (forall iss, In (Ev OIssuer iss) evs -> exists s1 s2, ok s1 /\ W s1 OIssuer iss s2).

  Lemma subject_step s o a s' id i : ok s -> W s o a s' -> auth s id = Some i ->
    exists i', auth s' id = Some i' /\ ai_subject i = ai_subject i'.
  Proof.
    intros HO HW HA. destruct (ll_auth _ _ _ _ L _ _ _ _ _ _ HO HW HA) as (i' & H & _). exists i'. split; [exact H|].
    exact (sl_subject _ _ _ _ T _ _ _ _ _ _ _ HO HW HA H).
  Qed.

  Lemma steady_step s o a s' code evs evs' : ok s -> W s o a s' ->
    (forall e, In e evs' <-> In e evs \/ e = Ev o a) -> steady_facts s code evs -> steady_facts s' code evs'.
  Proof.
    intros HO HW HE (F1 & F2 & F3 & F4).
    assert (UP : forall x, (exists e, In e evs /\ kept_by code x e) -> exists e, In e evs' /\ kept_by code x e).
    { intros x (e & H1 & H2). exists e. split; [apply HE; auto|exact H2]. }
    split; [|split; [|split]].
    - intros x HX. destruct (ll_stored _ _ _ _ L _ _ _ _ _ _ HO HW HX) as [H|(i & y & E & H)]; [auto|].
      destruct (sl_stored _ _ _ _ T _ _ _ _ _ _ HO HW HX) as [H'|(i' & y' & E' & H')]; [auto|].
      exists (Ev o a). split; [apply HE; auto|]. exists i, y. rewrite E in E'. apply (f_equal ev_op) in E'. injection E' as <- <-.
      tauto.
    - intros x HX. apply HE in HX. destruct HX as [HX|HX]; [auto|]. apply UP, F1.
      exact (ll_find _ _ _ _ L _ _ _ _ HO (wev_eq _ _ _ _ _ _ HW (eq_sym HX))).
    - intros e i HX HT. apply HE in HX. destruct HX as [HX|HX].
      + destruct (F3 e i HX HT) as (i1 & A1 & A2). destruct (subject_step _ _ _ _ _ _ HO HW A1) as (i2 & B1 & B2).
        exists i2. split; [exact B1|congruence].
      + pose proof (wev_eq _ _ _ _ _ _ HW (eq_sym HX)) as HV. destruct HT as [id i|uid cid i|uid cid scope i]; simpl in HV.
        * destruct (ll_active _ _ _ _ L _ _ _ _ HO HV) as [A1 A2]. rewrite <- A2 in A1.
          exact (subject_step _ _ _ _ _ _ HO HV A1).
        * destruct (ll_info _ _ _ _ L _ _ _ _ _ HO HV) as [A1 _].
          exact (subject_step _ _ _ _ _ _ HO HV A1).
        * destruct (ll_create _ _ _ _ L _ _ _ _ _ _ HO HV) as [A1 _]. exists i. auto.
    - intros iss HX. apply HE in HX. destruct HX as [HX|HX]; [auto|].
      exists s, s'. split; [exact HO|]. exact (wev_eq _ _ _ _ _ _ HW (eq_sym HX)).
  Qed.

  Lemma steady_psteps (c0 c : S * list (thread unit)) code : psteps W c0 c -> forall s0 progs, c0 = (s0, map start progs) -> ok s0 ->
    sess s0 code = None -> ok (fst c) /\ steady_facts (fst c) code (all_events (snd c)).
  Proof.
    induction 1 as [c|c1 c2 c3 H1 IH H2]; intros s0 progs E HO HN.
    - subst. cbn [fst snd]. split; [exact HO|].
      assert (X : @all_events unit (map start progs) = []).
      { clear. induction progs as [|p l IH]; [reflexivity|exact IH]. }
      rewrite X. split; [intros x Hx; congruence|]. repeat split; intros; try contradiction.
    - destruct (IH s0 progs E HO HN) as (I1 & I3). clear IH.
      destruct H2 as [s s' before past o k x after HW]. cbn [fst snd] in *. split; [eapply ll_ok; eauto|].
      eapply steady_step; [exact I1|exact HW| |exact I3]. intros e. unfold all_events.
      rewrite !flat_map_app. cbn [flat_map th_past]. rewrite !in_app_iff. simpl. intuition.
  Qed.

  Lemma ids_agree s0 progs s ths n J te r th :
    psteps W (s0, map start progs) (s, ths) -> ok s0 -> sess s0 (form_value r "code") = None -> Forall goidc progs ->
    only_bundled J te -> registered te (form_value r "grant_type") (authorization_code J) ->
    nth_error progs n = Some (token_handler J te r) -> nth_error ths n = Some th -> th_rest th = Ret tt ->
    In 200%Z (statuses (th_past th)) ->
    exists c now tg rs x info i y m p th',
      served J te r (th_past th) c now tg rs /\
      nth_error progs m = Some p /\ nth_error ths m = Some th' /\
      In (Ev (OCreateSession (Some i) y) None) (th_past th') /\ s_code y = form_value r "code" /\
      (has_word (ai_scope info) "openid" -> exists iss cs,
         id_claims cs iss (c_id c) (ai_subject info) (s_nonce y) (add64 now (as_idt_expires x)) (s_auth_time y) now None None /\
         signed_for J c cs (rs_id rs) /\
         forall E, sent_success p (th_past th') E -> exists mode uri params,
           answered mode uri params (th_past th') /\ In ("code", form_value r "code") params /\
           In (Ev OAuthTime (Some (s_auth_time y))) (th_past th') /\
           forall idt, In ("id_token", idt) params ->
             agrees E c (form_value r "code") iss (ai_subject info) (s_nonce y) (s_auth_time y) (th_past th') idt).
  Proof.
    intros HP HO HN HG HB HR Hn Hth Hend H200.
    destruct (facts_psteps _ _ _ _ L _ _ (form_value r "code") HP _ _ eq_refl HO HN) as (_ & HS & _ & _ & F3 & F4 & F5 & F6).
    destruct (steady_psteps _ _ (form_value r "code") HP _ _ eq_refl HO HN) as (_ & _ & G2 & G3 & G4).
    cbn [fst snd] in *.
    destruct (forall2_nth _ _ _ _ _ HS Hth) as (p0 & E0 & HSt). rewrite Hn in E0. injection E0 as <-.
    assert (Hex : exec (token_handler J te r) (th_past th) (Done tt)).
    { rewrite Hend in HSt. rewrite <- (app_nil_r (th_past th)). eapply steps_exec; [exact HSt|constructor]. }
    destruct (code_id_token_bound _ _ _ _ _ HB HR Hex H200) as (c & now & tg & rs & x & info & HSv & HX & HI & HCl & HOp & _).
    assert (HAll : forall m th' e, nth_error ths m = Some th' -> In e (th_past th') -> In e (all_events ths)).
    { intros m th' e H1 H2. unfold all_events. apply in_flat_map. exists th'. split; [eapply nth_error_In; eauto|exact H2]. }
    assert (HIn : forall e, In e tg -> In e (th_past th)).
    { destruct HSv as (ta & l & _ & -> & _). intros e He. apply in_or_app. right. right. apply in_or_app. auto. }
    destruct (G2 x) as (e & He & i & y & -> & Y1 & Y2 & Y3 & Y4 & Y5 & Y6); [eapply HAll; [exact Hth|exact (HIn _ HX)]|].
    unfold all_events in He. apply in_flat_map in He. destruct He as (th' & Hth' & He).
    apply In_nth_error in Hth'. destruct Hth' as [m Hm].
    destruct (forall2_nth _ _ _ _ _ HS Hm) as (p & Ep & HStp).
    assert (HGp : goidc p) by (eapply Forall_forall; [exact HG|eapply nth_error_In; eauto]).
    destruct (goidc_session _ _ _ _ _ _ HGp HStp He) as (pol & rq & t1 & HSf & HWho & t2 & Ht).
    assert (UpA : forall e, In e t1 -> In e (th_past th')) by (intros; rewrite Ht; apply in_or_app; auto).
    assert (HI' : In (Ev (OFindActiveInfo (as_auth_id x)) (Some info, None)) (all_events ths)) by (eapply HAll; [exact Hth|exact (HIn _ HI)]).
    pose proof (F6 _ _ HI') as Hid. rewrite Y2 in Hid.
    destruct (F3 _ _ HI' ltac:(constructor)) as (j & J1 & J2).
    destruct (G3 _ _ HI' ltac:(constructor)) as (j0 & J3 & J4). rewrite J1 in J3. injection J3 as <-.
    (* the run that stored the session speaks of the same authorization *)
    assert (SAME : forall e, In e (th_past th') -> tells e i -> ai_client i = c_id c /\ ai_subject i = ai_subject info).
    { intros e' He' HT. destruct (F3 _ _ (HAll _ _ _ Hm He') HT) as (j' & K1 & K2).
      destruct (G3 _ _ (HAll _ _ _ Hm He') HT) as (j'' & K3 & K4). rewrite <- Hid in K1, K3.
      rewrite J1 in K1, K3. injection K1 as <-. injection K3 as <-. destruct J2, K2. split; congruence. }
    assert (HW : (ai_client i = c_id c /\ ai_subject i = ai_subject info) /\ rq_client rq = c_id c).
    { destruct HWho as [(E & -> & uid & rs' & Hrec)|(E & r' & c' & info' & Hi & -> & HAp & HV & HC)].
      - assert (X : In (Ev (OCreateInfo uid (rq_client rq) (rq_scope rq)) (Some i, None)) (th_past th')).
        { apply UpA. rewrite Hrec. simpl. auto. }
        destruct (SAME _ X ltac:(constructor)) as [V1 V2]. split; [auto|]. destruct (F4 _ _ _ _ (HAll _ _ _ Hm X)). congruence.
      - injection Hi as <-. destruct HC as (uid & now' & (a & b & Hseg) & HC).
        assert (X : In (Ev (OFindInfo uid (rq_client rq)) (Some i, None)) (th_past th')).
        { apply UpA. rewrite Hseg. apply in_or_app. right. simpl. auto. }
        destruct (SAME _ X ltac:(constructor)) as [V1 V2]. split; [auto|]. destruct (F5 _ _ _ (HAll _ _ _ Hm X)). congruence. }
    destruct HW as [[HW1 HW2] HW3].
    exists c, now, tg, rs, x, info, i, y, m, p, th'.
    split; [exact HSv|]. split; [exact Ep|]. split; [exact Hm|]. split; [exact He|]. split; [exact Y1|].
    intros Hopen. destruct (HOp Hopen) as (iss & cs & HIss & HCs & HSg). exists iss, cs. rewrite Y5, Y6 in HCs.
    split; [exact HCs|]. split; [exact HSg|].
    assert (ISS : forall iss', In (Ev OIssuer iss') (th_past th') -> iss' = iss).
    { intros iss' H. destruct (G4 _ (HAll _ _ _ Hm H)) as (s1 & s2 & O1 & W1).
      destruct (G4 iss) as (s3 & s4 & O2 & W2); [eapply HAll; [exact Hth|exact (HIn _ HIss)]|].
      exact (sl_issuer _ _ _ _ T _ _ _ _ _ _ O1 O2 W1 W2). }
    intros E (Hhttp & HSS).
    assert (GO : exists pol' inf q pre tc, completed E pol' inf q tc /\ th_past th' = (pre ++ tc)%list /\ http_ops pre = [] /\
      times makes_session pre = 0%nat /\ (times makes_session (th_past th') <= 1)%nat /\ (inf = Some i -> rq_client q = c_id c)).
    { destruct HSS as [(pol' & Hp & Hx)|(pol' & r' & Hp & Hx)].
      - pose proof (completing_within _ _ _ _ Hx) as (_ & _ & HT1 & _).
        destruct (wp_exec _ _ _ _ _ (complete_request_wp E pol') Hx) as (req & info' & tc & HRc & Etc & HC).
        destruct HRc as (uid & rest & Erec). rewrite Erec in Etc. cbn [skipn] in Etc. subst rest.
        eexists pol', info', req, [_; _; _], tc. split; [exact HC|]. split; [exact Erec|]. split; [reflexivity|].
        split; [reflexivity|]. split; [exact HT1|]. intros ->.
        assert (X : In (Ev (OCreateInfo uid (rq_client req) (rq_scope req)) (Some i, None)) (th_past th')).
        { rewrite Erec. simpl. auto. }
        destruct (F4 _ _ _ _ (HAll _ _ _ Hm X)). congruence.
      - pose proof (handle_within _ _ _ _ _ Hx) as (_ & _ & HT1 & _).
        destruct (handle_sessions _ _ _ _ _ _ _ Hx He) as (c' & q & info' & pre & tc & HV & Et & Hh & H0 & HC).
        exists pol', (Some info'), q, pre, tc. split; [exact HC|]. split; [exact Et|]. split; [exact Hh|].
        split; [exact H0|]. split; [exact HT1|]. intros _.
        apply in_split in He. destruct He as (u1 & u2 & Eu).
        assert (HPf : performs (th_past th') u1 (OCreateSession (Some i) y)) by (exists None, u2; exact Eu).
        destruct (handle_issue _ _ _ _ _ _ _ Hx HPf eq_refl) as (c1 & q1 & info1 & HA1 & HV1 & HM1 & _ & Hi1 & _).
        injection Hi1 as <-. destruct HM1 as ((uid & now' & (a & b & Hseg) & _) & _).
        assert (X : In (Ev (OFindInfo uid (rq_client q1)) (Some i, None)) (th_past th')).
        { rewrite Eu, Hseg. apply in_or_app. left. apply in_or_app. right. simpl. auto. }
        destruct (F5 _ _ _ (HAll _ _ _ Hm X)) as [_ X2].
        rewrite (v_client _ _ _ _ HV), <- (v_client _ _ _ _ HV1). congruence. }
    destruct GO as (pol' & inf & q & pre & tc & HC & Et & Hh & H0 & HT1 & Hq).
    destruct (completed_agrees _ _ _ _ _ _ _ _ _ _ c (ai_subject info) HC Et Hh H0 HT1 He Y1 Hq HW1 HW2)
      as (params & A1 & A2 & A3 & A4 & A5).
    exists (rq_mode q), (rq_redirect q), params. split; [exact A1|]. split; [exact A2|]. split; [exact A4|].
    intros idt HIdt. destruct (A5 _ HIdt) as (iss' & B1 & B2). rewrite (ISS _ B1), <- A3 in B2. exact B2.
  Qed.
End Steady.
