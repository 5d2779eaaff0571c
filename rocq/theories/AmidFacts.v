(** * What is given out in the middle of other calls is on record. *)
From Coq Require Import Lia.
From Verif Require Import Hoare WpTac Core World Spec TokenSpec OAuthError Assertion Grants TokenEndpoint GrantFacts TokenFacts
  TokenProofs LogFacts TokenMore ResourceProtector ResourceSpec ResourceFacts AuthzResponse AuthzEndpoint AuthzSpec AuthzFacts
  AuthzProofs AuthzMore SysSpec SysFacts SysTrace JsonParse JsonFacts TestStore StoreFacts TraceSpec TraceFacts IsolSpec IsolFacts
  LeakFacts WorkSpec SysDemo WorkFacts RedeemFacts BoundSpec Bound BoundAuthz AgreeFacts ViewFacts.

Lemma screen_quiet r tr : error_screen_only r tr -> http_ops tr = [].
Proof.
  intros (n & HF). unfold http_ops.
  assert (G : forall o, In o (ops tr) -> is_http o = false).
  { intros o Ho. destruct (is_http o) eqn:EH; [|reflexivity]. exfalso.
    assert (X : In o (filter (fun o => match o with OLog _ _ _ => false | _ => true end) (ops tr)))
      by (apply filter_In; split; [exact Ho|destruct o; try reflexivity; discriminate EH]).
    rewrite HF in X. apply in_app_or in X. destruct X as [X|[X|[]]]; [|subst o; discriminate EH].
    revert X. repeat match goal with |- context [if ?d then _ else _] => destruct d end; simpl; intros X;
      decompose [or] X; subst; try discriminate EH; contradiction. }
  clear HF. induction (ops tr) as [|o l IH]; [reflexivity|]. simpl.
  rewrite (G o) by (simpl; auto). apply IH. intros; apply G; simpl; auto.
Qed.

(** ** Where codes and tokens come from in a completed run *)
Definition inert (o : op) : bool := match o with OCreateSession _ _ | ODisable _ => false | _ => harmless o end.

Lemma sent_inert mode uri params ta : sent mode uri params ta -> forall e, In e ta -> inert (ev_op e) = true.
Proof. intros H e He. destruct H; simpl in He; decompose [or] He; subst; try reflexivity; contradiction. Qed.
Lemma id_inert E pol info req clnt at_ access code b idt t : id_made E pol info req clnt at_ access code b idt t ->
  forall e, In e t -> inert (ev_op e) = true.
Proof. intros H e He. destruct H; simpl in He; decompose [or] He; subst; try reflexivity; contradiction. Qed.
Lemma inert_harmless o : inert o = true -> harmless o = true.
Proof. destruct o; simpl; congruence. Qed.
Lemma harmless_info o : harmless o = true -> makes_info o = false.
Proof. destruct o; simpl; congruence. Qed.
Lemma inert_leaves code o : inert o = true -> leaves code o = true.
Proof. destruct o; simpl; congruence. Qed.
Lemma inert_stores code o : inert o = true -> stores code o = false.
Proof. destruct o; simpl; congruence. Qed.

Definition stored_in (req : arequest) (i : authinfo) (code : string) (tc : list event) : Prop :=
  exists u1 y u2, tc = (u1 ++ Ev (OCreateSession (Some i) y) None :: u2)%list /\
    s_code y = code /\ s_redirect y = rq_redirect req /\ s_verifier y = rq_verifier req /\
    (forall e, In e u1 -> inert (ev_op e) = true) /\ (forall e, In e u2 -> leaves code (ev_op e) = true).
Definition made_in (i : authinfo) (t : string) (tc : list event) : Prop :=
  exists u1 k u2, tc = (u1 ++ Ev (OCreateToken (Some i) false) (Some k, None) :: u2)%list /\ ot_access k = t /\
    (forall e, In e u1 -> harmless (ev_op e) = true) /\ (forall e, In e u2 -> harmless (ev_op e) = true).

Lemma completed_parts E pol i req tc : completed E pol (Some i) req tc ->
  exists params, answered (rq_mode req) (rq_redirect req) params tc /\
    (forall code, In ("code", code) params -> stored_in req i code tc) /\
    (forall t, In ("access_token", t) params -> made_in i t tc).
Proof.
  intros HC.
  destruct HC as [f code at_ params ta Hf Ht [_ HH] HS|f clnt t idt at_ tt_ ti params ta Hf Ht HM HI [_ HH] HS
                 |f clnt t idt code at_ tt_ ti params ta Hf Ht HM HI [_ HH] HS].
  - exists params. split. { exists (session_stored pol (Some i) req code at_), ta. auto. } split.
    + intros code' Hc. apply HH in Hc. destruct Hc as [Hc|[Hc|[]]]; [|discriminate]. injection Hc as <-.
      exists [Ev OCreateCode (Some code); Ev OAuthTime (Some at_)]. eexists. exists ta. split; [reflexivity|]. cbn [s_code s_redirect s_verifier].
      do 3 (split; [reflexivity|]). split; [intros e [<-|[<-|[]]]; reflexivity|].
      intros e He. apply inert_leaves. eapply sent_inert; eauto.
    + intros t Hc. apply HH in Hc. destruct Hc as [Hc|[Hc|[]]]; discriminate.
  - exists params. split.
    { exists ([Ev (OFindClient (rq_client req)) (clnt, None)] ++ tt_ ++ [Ev OAuthTime (Some at_)] ++ ti)%list, ta.
      split; [rewrite <- !app_assoc; reflexivity|]. split; [|exact HS]. destruct HM, HI; reflexivity. }
    split.
    + intros code Hc. apply HH in Hc. exfalso. rewrite !in_app_iff in Hc. destruct Hc as [[Hc|[Hc|[]]]|[Hc|[Hc|[]]]]; try discriminate.
      destruct t; simpl in Hc; [|exact Hc]. destruct Hc as [Hc|[Hc|[Hc|[]]]]; discriminate.
    + intros t' Hc. apply HH in Hc. rewrite !in_app_iff in Hc. destruct Hc as [[Hc|[Hc|[]]]|[Hc|[Hc|[]]]]; try discriminate.
      destruct HM as [|k]; simpl in Hc; [destruct Hc|]. destruct Hc as [Hc|[Hc|[Hc|[]]]]; try discriminate. injection Hc as <-.
      exists [Ev (OFindClient (rq_client req)) (clnt, None)], k. eexists. split; [reflexivity|]. split; [reflexivity|].
      split; [intros e [<-|[]]; reflexivity|].
      intros e He. apply inert_harmless. simpl in He. destruct He as [<-|He]; [reflexivity|].
      apply in_app_or in He. destruct He as [He|He]; [eapply id_inert; eauto|eapply sent_inert; eauto].
  - exists params. split.
    { exists (session_stored pol (Some i) req code at_ ++ [Ev (OFindClient (rq_client req)) (clnt, None)] ++ tt_ ++ ti)%list, ta.
      split; [rewrite <- !app_assoc; reflexivity|]. split; [|exact HS]. destruct HM, HI; reflexivity. }
    split.
    + intros code' Hc. apply HH in Hc. rewrite !in_app_iff in Hc. destruct Hc as [[Hc|[Hc|[Hc|[]]]]|[Hc|[Hc|[]]]]; try discriminate.
      2: { exfalso. destruct t; simpl in Hc; [|exact Hc]. destruct Hc as [Hc|[Hc|[Hc|[]]]]; discriminate. }
      injection Hc as <-.
      exists [Ev OCreateCode (Some code); Ev OAuthTime (Some at_)]. eexists. eexists. split; [reflexivity|]. cbn [s_code s_redirect s_verifier].
      do 3 (split; [reflexivity|]). split; [intros e [<-|[<-|[]]]; reflexivity|].
      intros e He. simpl in He. destruct He as [<-|He]; [reflexivity|]. apply in_app_or in He. destruct He as [He|He].
      * destruct HM; simpl in He; [destruct He|destruct He as [<-|[]]; reflexivity].
      * apply inert_leaves. apply in_app_or in He. destruct He as [He|He]; [eapply id_inert; eauto|eapply sent_inert; eauto].
    + intros t' Hc. apply HH in Hc. rewrite !in_app_iff in Hc. destruct Hc as [[Hc|[Hc|[Hc|[]]]]|[Hc|[Hc|[]]]]; try discriminate.
      destruct HM as [|k]; simpl in Hc; [destruct Hc|]. destruct Hc as [Hc|[Hc|[Hc|[]]]]; try discriminate. injection Hc as <-.
      exists (session_stored pol (Some i) req code at_ ++ [Ev (OFindClient (rq_client req)) (clnt, None)])%list, k. eexists.
      split; [rewrite <- app_assoc; reflexivity|]. split; [reflexivity|].
      split.
      * intros e He. apply in_app_or in He. destruct He as [He|[<-|[]]]; [|reflexivity]. unfold session_stored in He. simpl in He.
        decompose [or] He; subst; try reflexivity; contradiction.
      * intros e He. apply inert_harmless. apply in_app_or in He. destruct He as [He|He]; [eapply id_inert; eauto|eapply sent_inert; eauto].
Qed.

Section Amid.
  Context {S : Type} (W : rworld S) (ok : S -> Prop) (sess : S -> string -> option authsession)
          (auth : S -> Z -> option authinfo) (tok : S -> string -> option oauthtoken) (genuine : oauthtoken -> Prop).
  Hypothesis L : linked_store W ok sess auth.
  Hypothesis P : separate_store W ok sess auth tok genuine.
  Hypothesis A : answering_store W ok sess auth tok.
  Context (s0 : S) (progs more : list (prog unit)) (s1 : S) (ths1 : list (thread unit)) (s2 : S) (ths2 : list (thread unit)) (m : nat).
  Hypothesis HO : ok s0.
  Hypothesis HG : Forall goidc progs.
  Hypothesis HM : Forall goidc more.
  Hypothesis HP : psteps W (s0, map start progs) (s1, ths1).
  Hypothesis HP2 : psteps W (s1, ths1 ++ map start more)%list (s2, ths2).

  Notation all := (progs ++ more)%list.
  Notation before := (ths1 ++ map start more)%list.
  Notation me := (length ths1 + m)%nat.

  Lemma amid_reach : reach W s0 all (s1, before).
  Proof.
    pose proof (psteps_frame W _ _ (map start more) HP) as HP1. cbn [fst snd] in HP1. rewrite <- map_app in HP1. exact HP1.
  Qed.
  Lemma amid_goidc : Forall goidc all.
  Proof. apply Forall_app. auto. Qed.
  Lemma amid_prog p : nth_error more m = Some p -> nth_error all me = Some p /\ nth_error before me = Some (start p).
  Proof.
    intros Hm. destruct (told_psteps W ok sess auth L _ _ HP _ _ eq_refl HO) as (_ & F & _). cbn [snd] in F.
    pose proof (forall2_len _ _ _ F) as EL. split.
    - rewrite <- EL, nth_error_app2 by lia. replace (length progs + m - length progs)%nat with m by lia. exact Hm.
    - rewrite nth_error_app2 by lia. replace (length ths1 + m - length ths1)%nat with m by lia. apply map_nth_error. exact Hm.
  Qed.
  Lemma amid_exec p th : nth_error more m = Some p -> nth_error ths2 me = Some th -> th_rest th = Ret tt -> exec p (th_past th) (Done tt).
  Proof.
    intros Hm Hth HR.
    destruct (told_psteps W ok sess auth L _ _ (psteps_trans _ _ _ _ amid_reach HP2) _ _ eq_refl HO) as (_ & F2 & _). cbn [snd] in F2.
    destruct (forall2_nth _ _ _ _ _ F2 Hth) as (p2 & E2 & HS). rewrite (proj1 (amid_prog _ Hm)) in E2. injection E2 as <-.
    rewrite <- (app_nil_r (th_past th)). eapply steps_exec; [exact HS|]. rewrite HR. constructor.
  Qed.
  Lemma amid_view p th cid (Q : op -> Prop) : nth_error more m = Some p -> nth_error ths2 me = Some th ->
    undisturbed cid me all before ths2 -> (forall e, others_since me before ths2 e -> ~ Q (ev_op e)) ->
    view W all me cid Q (s1, before) (th_past th) (s2, ths2).
  Proof.
    intros Hm Hth HU HQ.
    destruct (psteps_view W ok sess auth L s0 all me cid Q HO _ _ amid_reach HP2 HU HQ) as (tr & V & E).
    rewrite (E _ _ (proj2 (amid_prog _ Hm)) Hth). exact V.
  Qed.
  Lemma amid_told : told auth s2 (all_events ths2).
  Proof. exact (proj2 (proj2 (told_psteps W ok sess auth L _ _ (psteps_trans _ _ _ _ amid_reach HP2) _ _ eq_refl HO))). Qed.
  Lemma in_all th e n : nth_error ths2 n = Some th -> In e (th_past th) -> In e (all_events ths2).
  Proof. intros H1 H2. unfold all_events. apply in_flat_map. exists th. split; [eapply nth_error_In; eauto|exact H2]. Qed.

  Lemma amid_tokens J te r th : nth_error more m = Some (token_handler J te r) -> only_bundled J te ->
    ~ registered te (form_value r "grant_type") refresh_token ->
    nth_error ths2 me = Some th -> th_rest th = Ret tt -> In 200%Z (statuses (th_past th)) ->
    exists c now tg rs k i, served J te r (th_past th) c now tg rs /\ rs_access rs = ot_access k /\ rs_expires rs = ot_access_expires k /\
      rs_refresh rs = ot_refresh k /\ rs_scope rs = ai_scope i /\ ai_client i = c_id c /\
      (undisturbed (c_id c) me all before ths2 -> tok s2 (rs_access rs) = Some k /\ auth s2 (ot_auth_id k) = Some i).
  Proof.
    intros Hm HB HNR Hth HRest HI. pose proof (amid_exec _ _ Hm Hth HRest) as He.
    destruct (served_intro _ _ _ _ _ HB He HI) as (h & c & now & tg & rs & H1 & H2 & H3).
    exists c, now, tg, rs. pose proof H2 as (ta & l & HA & Htr & _ & Hl & _).
    assert (HLl : forall e, In e l -> harmless (ev_op e) = true).
    { apply (harmless_filter _ _ data_harmless). unfold data_calls in Hl. rewrite Hl. intros e []. }
    assert (View : undisturbed (c_id c) me all before ths2 ->
      view W all me (c_id c) (fun _ => False) (s1, before) (th_past th) (s2, ths2)).
    { intros HU. exact (amid_view _ _ _ _ Hm Hth HU (fun e _ F => F)). }
    assert (Direct : forall ident, direct_success r c ident (calls tg) rs ->
      exists k i, rs_access rs = ot_access k /\ rs_expires rs = ot_access_expires k /\ rs_refresh rs = ot_refresh k /\
        rs_scope rs = ai_scope i /\ ai_client i = c_id c /\
        (undisturbed (c_id c) me all before ths2 -> tok s2 (rs_access rs) = Some k /\ auth s2 (ot_auth_id k) = Some i)).
    { intros ident (h0 & uid & i & k & _ & _ & E & ->). exists k, i. simpl. do 4 (split; [reflexivity|]).
      unfold direct_calls in E. destruct (filter_split _ _ _ _ _ E) as (u1 & u2 & -> & _ & E2).
      destruct (filter_split _ _ [] _ _ E2) as (u3 & u4 & -> & E3 & E4).
      assert (Hc : ai_client i = c_id c).
      { apply (proj1 (proj2 amid_told) uid (c_id c) (form_value r "scope") i). eapply in_all; [exact Hth|]. rewrite Htr.
        apply in_or_app. right. right. apply in_or_app. left. apply in_or_app. right. left. reflexivity. }
      split; [exact Hc|]. intros HU. specialize (View HU).
      assert (G : tok s2 (ot_access k) = Some k /\ ot_auth_id k = ai_id i /\ auth s2 (ai_id i) = Some i).
      { eapply (view_issue W ok sess auth tok genuine L P A s0 all me (c_id c) (fun _ => False) HO amid_goidc (s1, before)
                 (ta ++ Ev ONow now :: u1) _ u3 i true k (u4 ++ l) (s2, ths2)).
        - rewrite Htr in View. rewrite <- !app_assoc in View. simpl in View. rewrite <- !app_assoc in View. simpl in View.
          rewrite <- !app_assoc. simpl. exact View.
        - exact amid_reach.
        - right. left. eauto.
        - exact Hc.
        - intros e He'. apply harmless_info. eapply (harmless_filter _ _ call_harmless); [|exact He']. unfold calls in E3. rewrite E3. intros ? [].
        - intros e He'. apply in_app_or in He'. destruct He' as [He'|He']; [|auto].
          eapply (harmless_filter _ _ call_harmless); [|exact He']. unfold calls in E4. rewrite E4. intros ? []. }
      destruct G as (G1 & G2 & G3). rewrite G2. auto. }
    destruct (registered_bundled _ _ _ _ HB H1).
    - apply (wp_exec _ _ _ _ _ (authorization_code_wp _ _ _ _)) in H3. destruct H3 as (_ & _ & x & i & k & C1 & C2 & C3 & C4 & C5 & rest & C6 & C7).
      pose proof (proj1 (proj2 (proj2 C1))) as Hc.
      exists k, i. split; [exact H2|]. split; [exact C2|]. split; [exact C3|]. split; [exact C4|]. split; [exact C5|]. split; [exact Hc|].
      intros HU. specialize (View HU).
      rewrite C2. unfold found_calls in C6. cbn [app] in C6. unfold data_calls in C6.
      destruct (filter_split _ _ [_] _ _ C6) as (u1 & u2 & -> & _ & E2).
      destruct (filter_split _ _ [] _ _ E2) as (u3 & u4 & -> & E3 & E4).
      assert (G : tok s2 (ot_access k) = Some k /\ ot_auth_id k = ai_id i /\ auth s2 (ai_id i) = Some i).
      { eapply (view_issue W ok sess auth tok genuine L P A s0 all me (c_id c) (fun _ => False) HO amid_goidc (s1, before)
                 (ta ++ Ev ONow now :: u1) _ u3 i true k (u4 ++ l) (s2, ths2)).
        - rewrite Htr in View. rewrite <- !app_assoc in View. simpl in View. rewrite <- !app_assoc in View. simpl in View.
          rewrite <- !app_assoc. simpl. exact View.
        - exact amid_reach.
        - left. eauto.
        - exact Hc.
        - intros e He'. apply harmless_info. eapply (harmless_filter _ _ data_harmless); [|exact He']. rewrite E3. intros ? [].
        - intros e He'. apply in_app_or in He'. destruct He' as [He'|He']; [|auto].
          eapply (harmless_filter _ _ data_harmless); [|exact He']. rewrite E4.
            intros ? [<-|Hin]; [reflexivity|]. destruct C7 as [(_ & iss & cs & -> & _)|(_ & -> & _)]; [|destruct Hin].
            destruct Hin as [<-|[]]. reflexivity. }
      destruct G as (G1 & G2 & G3). rewrite G2. auto.
    - exfalso. exact (HNR H1).
    - apply (wp_exec _ _ _ _ _ (password_grant_wp _ _ _)) in H3. destruct H3 as (_ & _ & H3). destruct (Direct _ H3) as (k & i & D). exists k, i. auto.
    - apply (wp_exec _ _ _ _ _ (client_credentials_wp _ _ _)) in H3. destruct H3 as (_ & _ & H3). destruct (Direct _ H3) as (k & i & D). exists k, i. auto.
    - apply (wp_exec _ _ _ _ _ (jwt_grant_wp _ _ _ _)) in H3. destruct H3 as (_ & _ & H3). destruct (Direct _ H3) as (k & i & D). exists k, i. auto.
  Qed.

  (** ** What the authorization endpoint sends *)
  Definition fresh_code (code : string) : Prop :=
    sess s1 code = None /\ (forall z, ~ In (Ev (OFindSession code) (Some z, None)) (all_events ths1)) /\
    forall e, others_since me before ths2 e -> stores code (ev_op e) = false.
  Definition code_on (req : arequest) (i : authinfo) (code : string) : Prop :=
    exists x, sess s2 code = Some x /\ as_auth_id x = ai_id i /\ auth s2 (ai_id i) = Some i /\
      as_redirect x = rq_redirect req /\ as_verifier x = rq_verifier req /\
      forall z, In (Ev (OFindSession code) (Some z, None)) (all_events ths2) -> z = x.

  Lemma amid_parts p th E pol i req p1 e1 p2 tc : nth_error more m = Some p -> nth_error ths2 me = Some th ->
    th_past th = (p1 ++ e1 :: p2 ++ tc)%list -> completed E pol (Some i) req tc ->
    ((exists uid ci sc, e1 = Ev (OCreateInfo uid ci sc) (Some i, None)) \/ exists uid ci, e1 = Ev (OFindInfo uid ci) (Some i, None)) ->
    (forall e, In e p2 -> makes_info (ev_op e) = false) -> (times makes_session (th_past th) <= 1)%nat ->
    undisturbed (ai_client i) me all before ths2 ->
    exists params, answered (rq_mode req) (rq_redirect req) params tc /\
      (forall code, In ("code", code) params -> fresh_code code -> code_on req i code) /\
      (forall t, In ("access_token", t) params -> token_kept_as auth tok i s2 t).
  Proof.
    intros Hm Hth Hpast HC He1 HI HT HU. destruct (completed_parts _ _ _ _ _ HC) as (params & HA & H1 & H2).
    exists params. split; [exact HA|]. split.
    - intros code Hc (F1 & F2 & F3). destruct (H1 _ Hc) as (u1 & y & u2 & -> & Y1 & Y2 & Y3 & U1 & U2).
      pose proof (amid_view _ _ (ai_client i) (fun o => stores code o = true) Hm Hth HU
                    (fun e He X => Bool.diff_true_false (eq_trans (eq_sym X) (F3 e He)))) as V.
      rewrite Hpast in V.
      assert (HQ : forall o, ~ stores code o = true -> stores code o = false) by (intros o; destruct (stores code o); intros X; [destruct (X eq_refl)|reflexivity]).
      assert (HNo : forall e, In e (p1 ++ p2) -> stores code (ev_op e) = false).
      { intros e He. assert (X : makes_session (ev_op e) = false).
        { rewrite Hpast in HT. change (e1 :: p2 ++ u1 ++ Ev (OCreateSession (Some i) y) None :: u2)%list
            with ([e1] ++ p2 ++ u1 ++ [Ev (OCreateSession (Some i) y) None] ++ u2)%list in HT.
          rewrite !count_app in HT.
          assert (X1 : times makes_session [Ev (OCreateSession (Some i) y) None] = 1%nat) by reflexivity.
          apply in_app_or in He. destruct He as [He|He]; eapply times_none; [|exact He| |exact He]; lia. }
        destruct (ev_op e); try reflexivity. discriminate X. }
      destruct (view_stored W ok sess auth tok genuine L P A s0 all me (ai_client i) (fun o => stores code o = true) HO amid_goidc code HQ
                 (s1, before) p1 e1 (p2 ++ u1) i y u2 (s2, ths2)) as (x & (X1 & X2 & X3) & X4 & X5 & X6).
      + rewrite <- app_assoc. exact V.
      + exact amid_reach.
      + exact He1.
      + reflexivity.
      + exact Y1.
      + split; [exact F1|]. cbn [snd]. intros z Hz. apply (F2 z). unfold all_events in Hz. rewrite flat_map_app in Hz.
        apply in_app_or in Hz. destruct Hz as [Hz|Hz]; [exact Hz|]. change (In (Ev (OFindSession code) (Some z, None)) (all_events (map start more))) in Hz.
        rewrite all_start in Hz. destruct Hz.
      + intros e He. rewrite !in_app_iff in He. destruct He as [He|[He|He]]; [apply HNo; apply in_or_app; auto..|apply inert_stores; auto].
      + intros e He. apply in_app_or in He. destruct He as [He|He]; [auto|]. apply harmless_info, inert_harmless. auto.
      + exact U2.
      + cbn [fst snd] in *. exists x. rewrite X4 in X2. split; [exact X1|]. split; [exact X4|]. split; [exact X2|]. split; [congruence|]. split; [congruence|exact X3].
    - intros t Ht. destruct (H2 _ Ht) as (u1 & k & u2 & -> & K1 & K2 & K3).
      pose proof (amid_view _ _ (ai_client i) (fun _ => False) Hm Hth HU (fun e _ F => F)) as V. rewrite Hpast in V.
      destruct (view_issue W ok sess auth tok genuine L P A s0 all me (ai_client i) (fun _ => False) HO amid_goidc (s1, before)
                 p1 e1 (p2 ++ u1) i false k u2 (s2, ths2)) as (G1 & G2 & G3).
      + rewrite <- app_assoc. exact V.
      + exact amid_reach.
      + right. exact He1.
      + reflexivity.
      + intros e He. apply in_app_or in He. destruct He as [He|He]; [auto|]. apply harmless_info. auto.
      + exact K3.
      + exists k. rewrite <- K1. auto.
  Qed.

  Lemma event_step o a : In (Ev o a) (all_events ths2) -> exists s s', ok s /\ W s o a s'.
  Proof.
    intros HI. pose proof (psteps_trans _ _ _ _ amid_reach HP2) as HX. clear - HX HI HO L.
    remember (s0, map start all) as c0 eqn:E0. remember (s2, ths2) as c2 eqn:E2.
    assert (G : In (Ev o a) (all_events (snd c2))) by (subst; exact HI). clear HI E2.
    induction HX as [c|c1 c2 c3 H1 IH H2].
    - exfalso. subst. cbn [snd] in G. rewrite all_start in G. exact G.
    - destruct (told_psteps W ok sess auth L _ _ H1 _ _ E0 HO) as (O1 & _).
      destruct H2 as [s s' bef past o' k x after HW]. cbn [fst snd] in *.
      apply events_more in G. destruct G as [G|G]; [auto|].
      exists s, s'. split; [exact O1|]. exact (wev_eq W _ _ _ _ _ HW (eq_sym G)).
  Qed.

  Lemma answered_more pre mode uri params tc : http_ops pre = [] -> answered mode uri params tc -> answered mode uri params (pre ++ tc).
  Proof.
    intros HH (pre2 & ta & G1 & G2 & G3). exists (pre ++ pre2)%list, ta. rewrite G1, <- app_assoc. split; [reflexivity|]. split; [|exact G3].
    unfold http_ops, ops in *. rewrite map_app, filter_app, HH, G2. reflexivity.
  Qed.

  Lemma amid_complete E pol th : nth_error more m = Some (done (complete_request E pol)) ->
    nth_error ths2 me = Some th -> th_rest th = Ret tt -> exec (complete_request E pol) (th_past th) (Done true) ->
    exists req i, recorded req (Some i) (th_past th) /\ ai_client i = rq_client req /\
      (undisturbed (rq_client req) me all before ths2 ->
       exists params, answered (rq_mode req) (rq_redirect req) params (th_past th) /\
        (forall code, In ("code", code) params -> fresh_code code -> code_on req i code) /\
        (forall t, In ("access_token", t) params -> token_kept_as auth tok i s2 t)).
  Proof.
    intros Hm Hth HR He. destruct (wp_exec _ _ _ _ _ (complete_request_wp E pol) He) as (req & info & tc & HRec & E3 & HC).
    pose proof HRec as (uid & rest & Hp). rewrite Hp in E3. cbn [skipn] in E3. subst tc.
    assert (HIn : In (Ev (OCreateInfo uid (rq_client req) (rq_scope req)) (info, None)) (all_events ths2)).
    { eapply in_all; [exact Hth|]. rewrite Hp. simpl. auto. }
    destruct (event_step _ _ HIn) as (s & s' & O1 & HW).
    destruct info as [i|]; [|exfalso; exact (an_info _ _ _ _ _ A _ _ _ _ _ _ O1 HW eq_refl)].
    destruct (ll_create _ _ _ _ L _ _ _ _ _ _ O1 HW) as (_ & _ & C3).
    exists req, i. split; [exact HRec|]. split; [exact C3|]. intros HU. rewrite <- C3 in HU.
    destruct (amid_parts _ _ E pol i req [Ev OContinue (Some (Some req)); Ev OLoginUser (Some uid)] _ [] rest Hm Hth Hp HC) as (params & G1 & G2 & G3).
    - left. eauto.
    - intros e [].
    - pose proof (completing_within _ _ _ _ He) as (_ & _ & HT & _). exact HT.
    - exact HU.
    - exists params. split; [|auto]. rewrite Hp.
      change (Ev OContinue (Some (Some req)) :: Ev OLoginUser (Some uid) :: Ev (OCreateInfo uid (rq_client req) (rq_scope req)) (Some i, None) :: rest)%list
        with ([Ev OContinue (Some (Some req)); Ev OLoginUser (Some uid); Ev (OCreateInfo uid (rq_client req) (rq_scope req)) (Some i, None)] ++ rest)%list.
      apply answered_more; [reflexivity|exact G1].
  Qed.

  Lemma amid_handle E pol r th b : nth_error more m = Some (done (handle_request E pol r)) ->
    nth_error ths2 me = Some th -> th_rest th = Ret tt -> exec (handle_request E pol r) (th_past th) (Done b) ->
    undisturbed (form_value r "client_id") me all before ths2 ->
    http_ops (th_past th) = [] \/
    (exists mode typ, error_sent mode (form_value r "redirect_uri") (form_value r "state") typ (th_past th)) \/
    exists c q params, approved r c (th_past th) /\ validated pol r c q /\ answered (rq_mode q) (rq_redirect q) params (th_past th) /\
      (forall code, In ("code", code) params -> exists i, ai_client i = rq_client q /\ (fresh_code code -> code_on q i code)) /\
      (forall t, In ("access_token", t) params -> exists i, ai_client i = rq_client q /\ token_kept_as auth tok i s2 t).
  Proof.
    intros Hm Hth HR He HU. pose proof (handle_handled _ _ _ _ _ He) as HH.
    remember (th_past th) as tr eqn:Etr.
    destruct HH as [HF _|c q _ _ HX _|c mode typ _ HX _|c q f info pre tc HAp HV _ Epc HP0 HC].
    - left. exact (screen_quiet _ _ HF).
    - left. exact HX.
    - right. left. eauto.
    - right. right. rewrite Epc in *. clear Epc.
      assert (HNI : forall e, In e (pre ++ tc) -> makes_info (ev_op e) = false).
      { intros e Hi. apply in_split in Hi. destruct Hi as (l1 & l2 & El). destruct e as [o a].
        assert (HPf : performs (pre ++ tc) l1 o) by (exists a, l2; exact El).
        pose proof (handle_performs _ _ _ _ _ _ _ He HPf) as HGd. destruct o; try reflexivity. destruct HGd. }
      destruct (completed_gives _ _ _ _ _ HC) as [(o & Ho & Hio)|(params & HAn & N1 & N2)].
      + unfold ops in Ho. apply in_map_iff in Ho. destruct Ho as ([o' a] & Eo & Hin). simpl in Eo. subst o'.
        apply in_split in Hin. destruct Hin as (l1 & l2 & El).
        assert (HPf : performs (pre ++ tc) (pre ++ l1) o) by (exists a, l2; rewrite El, <- app_assoc; reflexivity).
        pose proof (handle_performs _ _ _ _ _ _ _ He HPf) as HGd.
        assert (HM' : exists c' q' , validated pol r c' q' /\ consent_on_record pol q' info (pre ++ l1)).
        { destruct Hio as [[y ->]|[bb ->]]; destruct HGd as (c' & q' & i' & _ & V' & (M1 & _) & (_ & I1 & _));
            injection I1 as <-; eauto. }
        destruct HM' as (c' & q' & HV' & uid & now & (a1 & b1 & Es) & _).
        assert (HIn : In (Ev (OFindInfo uid (rq_client q')) (Some info, None)) (pre ++ l1)).
        { rewrite Es. apply in_or_app. right. simpl. auto. }
        apply in_app_or in HIn. destruct HIn as [HIn|HIn].
        2: { exfalso. apply (completed_looks _ _ _ _ _ uid (rq_client q') (Some info, None) HC). rewrite El. apply in_or_app. auto. }
        assert (HAll : In (Ev (OFindInfo uid (rq_client q')) (Some info, None)) (all_events ths2)).
        { eapply in_all; [exact Hth|]. rewrite <- Etr. apply in_or_app. auto. }
        destruct (event_step _ _ HAll) as (s & s' & O1 & HW).
        destruct (ll_info _ _ _ _ L _ _ _ _ _ O1 HW) as (_ & _ & F3).
        assert (F4 : ai_client info = rq_client q) by (rewrite F3, (v_client _ _ _ _ HV'), (v_client _ _ _ _ HV); reflexivity).
        apply in_split in HIn. destruct HIn as (p1 & p2 & Ep).
        destruct (amid_parts _ _ E pol info q p1 (Ev (OFindInfo uid (rq_client q')) (Some info, None)) p2 tc Hm Hth) as (params & G1 & G2 & G3).
        * rewrite <- Etr, Ep, <- app_assoc. reflexivity.
        * exact HC.
        * right. eauto.
        * intros e Hi. apply HNI. rewrite Ep. apply in_or_app. left. apply in_or_app. simpl. auto.
        * rewrite <- Etr. pose proof (handle_within _ _ _ _ _ He) as (_ & _ & HT & _). exact HT.
        * rewrite F4, (v_client _ _ _ _ HV). exact HU.
        * exists c, q, params. split; [exact HAp|]. split; [exact HV|]. split; [apply answered_more; auto|].
          split; intros v Hv; exists info; auto.
      + exists c, q, params. split; [exact HAp|]. split; [exact HV|]. split; [apply answered_more; auto|].
        split; intros v Hv; exfalso; [exact (N1 _ Hv)|exact (N2 _ Hv)].
  Qed.

  (** ** Redeeming a code *)
  Lemma amid_redeemed J te r c x i th : nth_error more m = Some (token_handler J te r) -> only_bundled J te ->
    registered te (form_value r "grant_type") (authorization_code J) ->
    nth_error ths2 me = Some th -> th_rest th = Ret tt ->
    sess s1 (form_value r "code") = Some x -> as_auth_id x = ai_id i -> auth s1 (ai_id i) = Some i ->
    (forall z, In (Ev (OFindSession (form_value r "code")) (Some z, None)) (all_events ths1) -> z = x) ->
    undisturbed (ai_client i) me all before ths2 ->
    (forall e, since before ths2 e -> stores (form_value r "code") (ev_op e) = false) ->
    signed_in J te r c (th_past th) -> code_checks r c x i -> (as_verifier x <> "" -> form_value r "code_challenge" <> "") ->
    (has_word (ai_scope i) "openid" -> can_sign J c) ->
    exists now tg rs k, served J te r (th_past th) c now tg rs /\ rs_access rs = ot_access k /\ rs_expires rs = ot_access_expires k /\
      rs_refresh rs = ot_refresh k /\ rs_scope rs = ai_scope i /\
      tok s2 (ot_access k) = Some k /\ ot_auth_id k = ai_id i /\ auth s2 (ai_id i) = Some i.
  Proof.
    intros Hm HB HReg Hth HRest Hx Hxi Hi Hz HU HSt HSig HC HV HSign.
    pose proof (amid_exec _ _ Hm Hth HRest) as He. rewrite <- Hxi in Hi.
    assert (Hz' : forall z, In (Ev (OFindSession (form_value r "code")) (Some z, None)) (all_events before) -> z = x).
    { intros z HI. unfold all_events in HI. rewrite flat_map_app in HI. apply in_app_or in HI. destruct HI as [HI|HI]; [auto|].
      change (In (Ev (OFindSession (form_value r "code")) (Some z, None)) (all_events (map start more))) in HI. rewrite all_start in HI. destruct HI. }
    destruct (code_kept W ok sess auth tok genuine L P A s0 all me J te r x i HO amid_goidc (proj1 (amid_prog _ Hm)) HReg _ _ HP2 amid_reach
        Hx Hi Hz' (proj2 (amid_prog _ Hm)) HU HSt) as (th' & E & (A1 & A2 & A3 & A4) & _).
    cbn [snd] in E. rewrite Hth in E. injection E as <-.
    destruct (signed_granted _ _ _ _ _ _ _ He HSig HReg) as (now0 & tg0 & y & G1 & G2 & G3).
    destruct (code_good _ _ _ _ _ _ _ _ G1 HC HV HSign) as [rs0 ->];
      [intros; apply A1, G2; simpl; auto|intros; apply A2, G2; simpl; auto|intros; apply A3, G2; simpl; auto|intros; apply A4, G2; simpl; auto|].
    pose proof (G3 _ eq_refl) as HI. clear G1 G2 G3.
    destruct (served_intro _ _ _ _ _ HB He HI) as (h & c' & now & tg & rs & H1 & H2 & H3).
    assert (h = authorization_code J) as -> by (eapply registered_fun; eauto).
    pose proof H2 as (ta & l & HA & Htr & _ & Hl & _).
    assert (c' = c) as ->.
    { eapply signed_unique; [|exact HSig]. exists ta, now. eexists. split; [exact HA|exact Htr]. }
    assert (HLl : forall e, In e l -> harmless (ev_op e) = true).
    { apply (harmless_filter _ _ data_harmless). unfold data_calls in Hl. rewrite Hl. intros e []. }
    pose proof (amid_view _ _ (ai_client i) (fun _ => False) Hm Hth HU (fun e _ F => F)) as View.
    apply (wp_exec _ _ _ _ _ (authorization_code_wp _ _ _ _)) in H3. destruct H3 as (_ & _ & x' & i' & k & C1 & C2 & C3 & C4 & C5 & rest & C6 & C7).
    assert (IN : forall e, In e (data_calls tg) -> In e (th_past th)).
    { intros e HIn. unfold data_calls in HIn. apply filter_In in HIn. destruct HIn as [HIn _]. rewrite Htr. apply in_or_app. right. right.
      apply in_or_app. auto. }
    assert (x' = x) as ->.
    { assert (X : (Some x', None) = (Some x, None) :> dres authsession).
      { apply A1. apply IN. rewrite C6. unfold found_calls. simpl. auto. }
      injection X as <-. reflexivity. }
    assert (i' = i) as ->.
    { assert (X : (Some i', None) = (Some i, None) :> dres authinfo).
      { apply A2. apply IN. rewrite C6. unfold found_calls. simpl. auto. }
      injection X as <-. reflexivity. }
    exists now, tg, rs, k. split; [exact H2|]. split; [exact C2|]. split; [exact C3|]. split; [exact C4|]. split; [exact C5|].
    unfold found_calls in C6. cbn [app] in C6. unfold data_calls in C6.
    destruct (filter_split _ _ [_] _ _ C6) as (u1 & u2 & -> & _ & E2).
    destruct (filter_split _ _ [] _ _ E2) as (u3 & u4 & -> & E3 & E4).
    eapply (view_issue W ok sess auth tok genuine L P A s0 all me (ai_client i) (fun _ => False) HO amid_goidc (s1, before)
               (ta ++ Ev ONow now :: u1) _ u3 i true k (u4 ++ l) (s2, ths2)).
    - rewrite Htr in View. rewrite <- !app_assoc in View. simpl in View. rewrite <- !app_assoc in View. simpl in View.
      rewrite <- !app_assoc. simpl. exact View.
    - exact amid_reach.
    - left. eauto.
    - reflexivity.
    - intros e He'. apply harmless_info. eapply (harmless_filter _ _ data_harmless); [|exact He']. rewrite E3. intros ? [].
    - intros e He'. apply in_app_or in He'. destruct He' as [He'|He']; [|auto].
      eapply (harmless_filter _ _ data_harmless); [|exact He']. rewrite E4.
      intros ? [<-|Hin]; [reflexivity|]. destruct C7 as [(_ & iss & cs & -> & _)|(_ & -> & _)]; [|destruct Hin].
      destruct Hin as [<-|[]]. reflexivity.
  Qed.
End Amid.
