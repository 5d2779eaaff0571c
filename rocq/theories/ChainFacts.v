(** * A renewed token is on record, amid other calls. *)
From Coq Require Import Lia.
From Verif Require Import Hoare WpTac Core World Spec TokenSpec OAuthError Assertion Grants TokenEndpoint GrantFacts TokenFacts
  TokenProofs LogFacts TokenMore ResourceProtector ResourceSpec ResourceFacts AuthzResponse AuthzEndpoint AuthzSpec AuthzFacts
  AuthzProofs AuthzMore SysSpec SysFacts SysTrace JsonParse JsonFacts TestStore StoreFacts TraceSpec TraceFacts IsolSpec IsolFacts
  LeakFacts WorkSpec SysDemo WorkFacts RedeemFacts RefreshSpec RefreshFacts ViewFacts AmidFacts.

Section Renewed.
  Context {S : Type} (W : rworld S) (ok : S -> Prop) (sess : S -> string -> option authsession)
          (auth : S -> Z -> option authinfo) (tok : S -> string -> option oauthtoken) (genuine : oauthtoken -> Prop).
  Hypothesis L : linked_store W ok sess auth.
  Hypothesis P : separate_store W ok sess auth tok genuine.
  Hypothesis A : answering_store W ok sess auth tok.
  Hypothesis F : refreshing_store W ok tok.

  Lemma view_renewed s0 progs m cid Q c t1 t old t2 i' k t3 c' id i :
    ok s0 -> Forall goidc progs ->
    view W progs m cid Q c (t1 ++ Ev (OFindByRefresh t) (Some old, None) :: t2 ++ Ev (ORefresh i' old) (Some k, None) :: t3) c' ->
    reach W s0 progs c -> auth (fst c) id = Some i -> ai_client i = cid -> ot_auth_id old = id ->
    (forall e, In e (t1 ++ t2 ++ t3) -> harmless (ev_op e) = true) ->
    tok (fst c') (ot_access k) = Some k /\ ot_auth_id k = id /\ auth (fst c') id = Some i /\
    (renewing_store W ok tok -> t <> "" -> ot_refresh k <> "").
  Proof.
    intros HO HG HV HR Hi Hc Ho HH.
    assert (H1 : forall e, In e t1 -> harmless (ev_op e) = true) by (intros e He; apply HH; rewrite !in_app_iff; auto).
    assert (H2 : forall e, In e t2 -> harmless (ev_op e) = true) by (intros e He; apply HH; rewrite !in_app_iff; auto).
    assert (H3 : forall e, In e t3 -> harmless (ev_op e) = true) by (intros e He; apply HH; rewrite !in_app_iff; auto).
    assert (H0 : forall e : event, In e [] -> harmless (ev_op e) = true) by (intros e []).
    pose proof (view_keep W ok sess auth tok genuine L P s0 progs m cid Q HO HG) as VK.
    pose proof (view_reach W s0 progs m cid Q) as VR.
    destruct (view_split W progs m cid Q _ _ _ _ HV) as (c1 & V1 & V2). pose proof (VR _ _ _ HR V1) as R1.
    destruct (VK _ _ _ V1 HR H1 _ _ Hi Hc) as [I1 _].
    destruct (view_one W progs m cid Q _ _ _ _ V2) as (c2 & c3 & V3 & M1 & V4). pose proof (VR _ _ _ R1 V3) as R2.
    destruct (VK _ _ _ V3 R1 H0 _ _ I1 Hc) as [I2 _].
    pose proof (reach_ok W ok sess auth L s0 progs HO _ R2) as O2. destruct (mine_world W m _ _ _ M1) as (o & x & Ee & HW).
    pose proof (wev_eq W _ _ _ _ _ HW (eq_sym Ee)) as HW'.
    pose proof (VR _ _ _ R2 (view_mine W progs m cid Q _ _ _ _ _ M1 (view_nil W progs m cid Q _))) as R3.
    pose proof (an_by_refresh _ _ _ _ _ A _ _ _ _ O2 HW') as T2.
    destruct (reads_keep W ok sess auth tok genuine P _ _ _ _ O2 HW' eq_refl) as (K1 & K2 & _).
    apply K1 in I2. apply K2 in T2. clear K1 K2.
    destruct (view_split W progs m cid Q _ _ _ _ V4) as (c4 & V5 & V6). pose proof (VR _ _ _ R3 V5) as R4.
    destruct (VK _ _ _ V5 R3 H2 _ _ I2 Hc) as [I4 T4]. specialize (T4 _ _ T2 Ho).
    destruct (view_one W progs m cid Q _ _ _ _ V6) as (c5 & c6 & V7 & M2 & V8). pose proof (VR _ _ _ R4 V7) as R5.
    destruct (VK _ _ _ V7 R4 H0 _ _ I4 Hc) as [I5 T5]. specialize (T5 _ _ T4 Ho).
    pose proof (reach_ok W ok sess auth L s0 progs HO _ R5) as O5. destruct (mine_world W m _ _ _ M2) as (o' & x' & E' & HW4).
    pose proof (wev_eq W _ _ _ _ _ HW4 (eq_sym E')) as HW4'.
    destruct (an_refresh _ _ _ _ _ A _ _ _ _ _ O5 HW4') as (T6 & y & Y1 & Y2).
    assert (y = old) as -> by congruence.
    assert (I6 : auth (fst c6) id = Some i).
    { destruct (sp_info _ _ _ _ _ _ P _ _ _ _ _ _ O5 HW4' I5) as [H|(u & ci & sc & j & X & _)]; [exact H|discriminate]. }
    pose proof (VR _ _ _ R5 (view_mine W progs m cid Q _ _ _ _ _ M2 (view_nil W progs m cid Q _))) as R6.
    destruct (VK _ _ _ V8 R6 H3 _ _ I6 Hc) as [K3 K4].
    assert (E : ot_auth_id k = id) by congruence. split; [auto|]. split; [exact E|]. split; [auto|].
    intros HN Nt. destruct HN as [N1 N2]. pose proof (N1 _ _ _ _ O2 HW') as Et. eapply N2; [exact O5|exact T5|congruence|exact HW4'].
  Qed.

  Lemma amid_renewed s0 progs more s1 ths1 s2 ths2 m J te r c t k i th :
    ok s0 -> Forall goidc progs -> Forall goidc more ->
    psteps W (s0, map start progs) (s1, ths1) -> psteps W (s1, ths1 ++ map start more)%list (s2, ths2) ->
    nth_error more m = Some (token_handler J te r) -> only_bundled J te -> registered te (form_value r "grant_type") refresh_token ->
    nth_error ths2 (length ths1 + m) = Some th -> th_rest th = Ret tt ->
    tok s1 t = Some k -> auth s1 (ot_auth_id k) = Some i ->
    form_value r "refresh_token" = ot_refresh k -> ot_refresh k <> "" ->
    undisturbed (ai_client i) (length ths1 + m) (progs ++ more) (ths1 ++ map start more) ths2 ->
    signed_in J te r c (th_past th) -> c_id c = ai_client i -> has_word (ai_scope i) "offline_access" ->
    (forall k' now, In (Ev (OFindByRefresh (ot_refresh k)) (Some k', None)) (th_past th) -> In (Ev ONow now) (th_past th) ->
       refresh_live k' now) ->
    exists rs k', http_ops (th_past th) = success_answer rs /\ rs_access rs = ot_access k' /\ rs_expires rs = ot_access_expires k' /\
      rs_refresh rs = ot_refresh k' /\ rs_scope rs = ai_scope i /\
      tok s2 (ot_access k') = Some k' /\ auth s2 (ot_auth_id k') = Some i /\ (renewing_store W ok tok -> ot_refresh k' <> "").
  Proof.
    intros HO HG HM HP HP2 Hm HB HReg Hth HR Ht Hi Er Nr HU HSig Hc Hw HL.
    pose proof (amid_exec W ok sess auth L s0 progs more s1 ths1 s2 ths2 m HO HP HP2 _ _ Hm Hth HR) as He.
    pose proof (amid_reach W s0 progs more s1 ths1 HP) as HRe.
    destruct (amid_prog W ok sess auth L s0 progs more s1 ths1 m HO HP _ Hm) as [Hn Hs].
    destruct (refresh_kept W ok sess auth tok genuine L P A F s0 (progs ++ more) _ J te r t k i HO
        (proj2 (Forall_app _ _ _) (conj HG HM)) Hn HReg (eq_sym Er) ltac:(congruence) _ _ HP2 HRe Ht Hi Hs HU) as (th' & E & (A1 & A2 & A3) & _).
    cbn [snd] in E. rewrite Hth in E. injection E as <-.
    assert (H200 : In 200%Z (statuses (th_past th))).
    { destruct (signed_granted _ _ _ _ _ _ _ He HSig HReg) as (now & tg & y & G1 & G2 & G3).
      destruct (refresh_good _ _ _ _ _ (ot_auth_id k) i G1 ltac:(congruence) (eq_sym Hc) Hw) as [rs ->].
      - intros a Ha. destruct (A1 a) as (k' & -> & Ek); [apply G2; simpl; auto|]. exists k'. split; [reflexivity|]. split; [exact Ek|].
        apply HL; [|apply G2; simpl; auto]. rewrite <- Er. apply G2. simpl. auto.
      - intros a Ha. apply A2, G2. simpl. auto.
      - intros i' k' a Ha. apply (A3 i' k'), G2. simpl. auto.
      - exact (G3 _ eq_refl). }
    destruct (served_intro _ _ _ _ _ HB He H200) as (h & c' & now & tg & rs & H1 & H2 & H3).
    assert (h = refresh_token) as -> by (eapply registered_fun; eauto).
    apply (wp_exec _ _ _ _ _ (refresh_token_wp _ _ _)) in H3. destruct H3 as (_ & _ & old & info & k' & C1 & C2 & ->).
    destruct H2 as (ta & l & HA & Htr & HH & Hl & Hans).
    unfold refresh_found in C2. cbn [app] in C2. unfold data_calls in C2.
    destruct (filter_split _ _ [] _ _ C2) as (u1 & u2 & Eu & D1 & E2). subst tg.
    destruct (filter_split _ _ [_] _ _ E2) as (u3 & u4 & Eu & D3 & E4). subst u2.
    assert (HIn : forall e, In e (u1 ++ Ev (OFindByRefresh (form_value r "refresh_token")) (Some old, None) :: u3 ++ Ev (ORefresh info old) (Some k', None) :: u4)%list ->
              In e (th_past th)).
    { intros e Hin. rewrite Htr. apply in_or_app. right. right. apply in_or_app. left. exact Hin. }
    destruct (A1 (Some old, None)) as (k0 & K1 & K2). { apply HIn. apply in_or_app. right. left. reflexivity. }
    injection K1 as <-.
    assert (info = i) as ->.
    { assert (X : In (Ev (OFindActiveInfo (ot_auth_id old)) (Some info, None)) (filter (fun e => is_data (ev_op e)) u3)) by (rewrite D3; left; reflexivity).
      apply filter_In in X. rewrite K2 in X.
      assert (Y : (Some info, None) = (Some i, None) :> dres authinfo).
      { apply A2, HIn. apply in_or_app. right. right. apply in_or_app. left. exact (proj1 X). }
      injection Y as <-. reflexivity. }
    exists (Response (ot_access k') (ot_access_expires k') (ot_refresh k') (ai_scope i) ""), k'.
    split.
    { rewrite Htr. change (Ev ONow now :: (u1 ++ Ev (OFindByRefresh (form_value r "refresh_token")) (Some old, None) :: u3 ++ Ev (ORefresh i old) (Some k', None) :: u4) ++ l)%list
        with ((Ev ONow now :: u1 ++ Ev (OFindByRefresh (form_value r "refresh_token")) (Some old, None) :: u3 ++ Ev (ORefresh i old) (Some k', None) :: u4) ++ l)%list.
      rewrite app_assoc, http_ops_app, HH, Hans. reflexivity. }
    do 4 (split; [reflexivity|]).
    pose proof (amid_view W ok sess auth L s0 progs more s1 ths1 s2 ths2 m HO HP HP2 _ _ (ai_client i) (fun _ => False) Hm Hth HU (fun e _ X => X)) as View.
    destruct (view_renewed s0 (progs ++ more) (length ths1 + m) (ai_client i) (fun _ => False) (s1, (ths1 ++ map start more)%list)
               (ta ++ Ev ONow now :: u1) (form_value r "refresh_token") old u3 i k' (u4 ++ l) (s2, ths2) (ot_auth_id k) i) as (G1 & G2 & G3 & G4).
    - exact HO.
    - apply Forall_app. auto.
    - rewrite Htr in View. rewrite <- !app_assoc in View. simpl in View. rewrite <- !app_assoc in View. simpl in View.
      rewrite <- !app_assoc. simpl. exact View.
    - exact HRe.
    - exact Hi.
    - reflexivity.
    - exact K2.
    - intros e Hin. destruct (authenticated_ops _ _ _ _ _ HA) as (_ & _ & HO1 & _).
      assert (HD : forall u d, filter (fun e => is_data (ev_op e)) u = d -> (forall e, In e d -> harmless (ev_op e) = true) ->
                forall e, In e u -> harmless (ev_op e) = true).
      { intros u d Hd Hdd. apply (harmless_filter _ _ data_harmless). rewrite Hd. exact Hdd. }
      rewrite !in_app_iff in Hin. destruct Hin as [[Hin|[<-|Hin]]|[Hin|[Hin|Hin]]].
      + apply HO1 in Hin. destruct (ev_op e); try reflexivity; discriminate Hin.
      + reflexivity.
      + refine (HD _ _ D1 _ _ Hin). intros ? [].
      + refine (HD _ _ D3 _ _ Hin). intros ? [<-|[]]. reflexivity.
      + refine (HD _ _ E4 _ _ Hin). intros ? [].
      + refine (HD _ _ Hl _ _ Hin). intros ? [].
    - cbn [fst] in *. rewrite G2. split; [exact G1|]. split; [exact G3|]. intros HN. apply G4; [exact HN|]. congruence.
  Qed.
End Renewed.
