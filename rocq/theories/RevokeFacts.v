(** * Withdrawn authorizations. *)
From Coq Require Import Lia.
From Verif Require Import Hoare WpTac Core World Spec TokenSpec Grants TokenEndpoint GrantFacts TokenFacts TokenProofs TokenMore
  AuthzResponse AuthzEndpoint AuthzSpec ResourceProtector ResourceSpec ResourceFacts SysSpec TraceSpec IsolSpec WorkSpec RevokeSpec
  SysFacts SysTrace SysDemo TraceFacts LeakFacts IsolFacts WorkFacts.

Definition info_made (e : event) : option (dres authinfo) :=
  match e with Ev o a => (match o as o0 return ans o0 -> option (dres authinfo) with OCreateInfo _ _ _ => fun a => Some a | _ => fun _ => None end) a end.

Lemma steps_trans {A} (p q r : prog A) t1 t2 : steps p t1 q -> steps q t2 r -> steps p (t1 ++ t2) r.
Proof. induction 1 as [p|o k x tr p' H IH]; intros H2; [exact H2|]. simpl. constructor. apply IH. exact H2. Qed.

Section Pool.
  Context {S : Type} (W : rworld S).

  Lemma psteps_rest (c1 c2 : S * list (thread unit)) : psteps W c1 c2 -> forall n th2, nth_error (snd c2) n = Some th2 ->
    exists th1 t, nth_error (snd c1) n = Some th1 /\ th_past th2 = (th_past th1 ++ t)%list /\ steps (th_rest th1) t (th_rest th2).
  Proof.
    induction 1 as [c|c1 c2 c3 H1 IH H2]; intros n th2 Hn.
    - exists th2, []. rewrite app_nil_r. repeat split; [exact Hn|constructor].
    - destruct H2 as [s s' before past o k x after HW]. cbn [snd] in *.
      destruct (Nat.eq_dec n (length before)) as [->|Hne].
      + rewrite nth_mid in Hn. injection Hn as <-. destruct (IH _ _ (nth_mid _ _ _)) as (th1 & t & E1 & E2 & E3). simpl in E2, E3 |- *.
        exists th1, (t ++ [Ev o x])%list. rewrite E2, app_assoc. repeat split; [exact E1|]. apply steps_snoc. exact E3.
      + rewrite (nth_other _ _ (Thread past (Vis o k))) in Hn by exact Hne. exact (IH _ _ Hn).
  Qed.

  Lemma rv_ok_psteps (ok : S -> Prop) s1 (ths1 : list (thread unit)) s2 ths2 : (forall s o a s', ok s -> W s o a s' -> ok s') ->
    psteps W (s1, ths1) (s2, ths2) -> ok s1 -> ok s2.
  Proof.
    intros HK H HO. remember (s1, ths1) as c1 eqn:E1. remember (s2, ths2) as c2 eqn:E2. change s2 with (fst (s2, ths2)). rewrite <- E2.
    clear E2. induction H as [c|c1 c2 c3 H1 IH H2]; [subst; exact HO|]. specialize (IH E1). destruct H2. simpl in *. eauto.
  Qed.

  Lemma since_old ths1 before past o k x after e :
    since ths1 (before ++ Thread past (Vis o k) :: after) e -> since ths1 (before ++ Thread (past ++ [Ev o x]) (k x) :: after) e.
  Proof.
    intros (n & th1 & th2 & t & E1 & E2 & E3 & E4). destruct (Nat.eq_dec n (length before)) as [->|Hne].
    - rewrite nth_mid in E2. injection E2 as <-. simpl in E3.
      exists (length before), th1. eexists. exists (t ++ [Ev o x])%list. split; [exact E1|]. split; [apply nth_mid|]. simpl.
      rewrite E3, app_assoc. split; [reflexivity|]. apply in_or_app. auto.
    - exists n, th1, th2, t. split; [exact E1|]. split; [|auto]. rewrite <- E2. apply nth_other. exact Hne.
  Qed.
  Lemma since_new ths1 s1 s before past o k x after :
    psteps W (s1, ths1) (s, before ++ Thread past (Vis o k) :: after)%list ->
    since ths1 (before ++ Thread (past ++ [Ev o x]) (k x) :: after) (Ev o x).
  Proof.
    intros H. destruct (psteps_rest _ _ H _ _ (nth_mid _ _ _)) as (th1 & t & E1 & E2 & _). cbn [snd] in E1. simpl in E2.
    exists (length before), th1. eexists. exists (t ++ [Ev o x])%list. split; [exact E1|]. split; [apply nth_mid|]. simpl.
    rewrite E2, app_assoc. split; [reflexivity|]. apply in_or_app. simpl. auto.
  Qed.
  Lemma since_inv ths1 s1 s before past o k x after e :
    psteps W (s1, ths1) (s, before ++ Thread past (Vis o k) :: after)%list ->
    since ths1 (before ++ Thread (past ++ [Ev o x]) (k x) :: after) e ->
    since ths1 (before ++ Thread past (Vis o k) :: after) e \/ e = Ev o x.
  Proof.
    intros H (n & th1 & th2 & t & E1 & E2 & E3 & E4). destruct (Nat.eq_dec n (length before)) as [->|Hne].
    - rewrite nth_mid in E2. injection E2 as <-. simpl in E3.
      destruct (psteps_rest _ _ H _ _ (nth_mid _ _ _)) as (th1' & t' & F1 & F2 & _). cbn [snd] in F1. rewrite E1 in F1. injection F1 as <-.
      simpl in F2. rewrite F2, <- app_assoc in E3. apply app_inv_head in E3. rewrite <- E3 in E4.
      apply in_app_or in E4. destruct E4 as [E4|[E4|[]]]; [left|right; auto].
      exists (length before), th1. eexists. exists t'. split; [exact E1|]. split; [apply nth_mid|]. simpl. auto.
    - left. exists n, th1, th2, t. split; [exact E1|]. split; [|auto]. rewrite <- E2. apply nth_other. exact Hne.
  Qed.
End Pool.

Section Revoke.
  Context {S : Type} (W : rworld S) (ok : S -> Prop) (gone : S -> Z -> Prop).
  Hypothesis R : revoking_store W ok gone.

  (* what the data layer says about authorizations while [id] is withdrawn *)
  Definition says (id : Z) (e : event) : Prop :=
    (forall id' i, e = Ev (OFindActiveInfo id') (Some i, None) -> ai_id i = id' /\ id' <> id) /\
    (forall uid cid i, e = Ev (OFindInfo uid cid) (Some i, None) -> ai_id i = id -> ai_active i = false) /\
    (forall uid cid scope i, e = Ev (OCreateInfo uid cid scope) (Some i, None) -> ai_id i <> id).

  Lemma revoked_psteps s1 ths1 id c2 : psteps W (s1, ths1) c2 -> ok s1 -> gone s1 id ->
    revived ths1 (snd c2) id \/ (ok (fst c2) /\ gone (fst c2) id /\ forall e, since ths1 (snd c2) e -> says id e).
  Proof.
    intros H HO HGn. remember (s1, ths1) as c1 eqn:E. induction H as [c|c1 c2 c3 H1 IH H2].
    - right. subst. cbn [fst snd]. split; [exact HO|]. split; [exact HGn|].
      intros e (n & th1 & th2 & t & E1 & E2 & E3 & E4). exfalso. rewrite E1 in E2. injection E2 as <-.
      rewrite <- (app_nil_r (th_past th1)) in E3 at 1. apply app_inv_head in E3. subst. exact E4.
    - specialize (IH E). subst c1. destruct H2 as [s s' before past o k x after HW]. cbn [fst snd] in *.
      destruct IH as [(uid & cid & scope & i & I1 & I2)|(I1 & I2 & I3)].
      { left. exists uid, cid, scope, i. split; [apply since_old; exact I1|exact I2]. }
      destruct (rv_kept _ _ _ R _ _ _ _ _ I1 HW I2) as [K|(uid & cid & scope & i & K1 & K2)].
      2: { left. exists uid, cid, scope, i. split; [|exact K2]. rewrite <- K1. eapply since_new. exact H1. }
      assert (HC : (exists uid cid scope i, Ev o x = Ev (OCreateInfo uid cid scope) (Some i, None) /\ ai_id i = id) \/
                   forall uid cid scope i, Ev o x = Ev (OCreateInfo uid cid scope) (Some i, None) -> ai_id i <> id).
      { destruct o; try (right; intros ? ? ? ? X; apply (f_equal ev_op) in X; discriminate X).
        destruct x as [[i|] [e|]]; try (right; intros ? ? ? j X; apply (f_equal info_made) in X; simpl in X; discriminate X).
        destruct (Z.eq_dec (ai_id i) id) as [Ei|Ei]; [left; eauto 7|right].
        intros ? ? ? j X. apply (f_equal info_made) in X. simpl in X. injection X as <-. exact Ei. }
      destruct HC as [(uid & cid & scope & i & K1 & K2)|HC].
      { left. exists uid, cid, scope, i. split; [|exact K2]. rewrite <- K1. eapply since_new. exact H1. }
      right. split; [eapply rv_ok; eauto|]. split; [exact K|].
      intros e He. destruct (since_inv _ _ _ _ _ _ _ _ _ _ _ H1 He) as [He'| ->]; [exact (I3 _ He')|].
      split; [|split].
      + intros id' i X. destruct (rv_active _ _ _ R _ _ _ _ I1 (wev_eq W _ _ _ _ _ HW X)) as [X1 X2]. split; [exact X1|]. congruence.
      + intros uid cid i X Hi. apply (rv_found _ _ _ R _ _ _ _ _ I1 (wev_eq W _ _ _ _ _ HW X)). rewrite Hi. exact I2.
      + exact HC.
  Qed.

  Lemma never_revived s1 ths1 id c2 : psteps W (s1, ths1) c2 -> ok s1 -> gone s1 id ->
    (forall s o a s', ok s -> gone s id -> W s o a s' -> gone s' id) ->
    (forall s uid cid scope i s', ok s -> gone s id -> W s (OCreateInfo uid cid scope) (Some i, None) s' -> ai_id i <> id) ->
    ~ revived ths1 (snd c2) id.
  Proof.
    intros H HO HGn HK HN.
    assert (X : ok (fst c2) /\ gone (fst c2) id /\ ~ revived ths1 (snd c2) id); [|tauto].
    remember (s1, ths1) as c1 eqn:E. induction H as [c|c1 c2 c3 H1 IH H2].
    - subst. split; [exact HO|]. split; [exact HGn|]. intros (uid & cid & scope & i & (n & th1 & th2 & t & E1 & E2 & E3 & E4) & _).
      cbn [snd] in E2. rewrite E1 in E2. injection E2 as <-. rewrite <- (app_nil_r (th_past th1)) in E3 at 1. apply app_inv_head in E3. subst. exact E4.
    - specialize (IH E). subst c1. destruct H2 as [s s' before past o k x after HW]. cbn [fst snd] in *. destruct IH as (I1 & I2 & I3).
      split; [eapply rv_ok; eauto|]. split; [eapply HK; eauto|]. intros (uid & cid & scope & i & Hs & Hi).
      destruct (since_inv _ _ _ _ _ _ _ _ _ _ _ H1 Hs) as [Hs'|Hs']; [apply I3; exists uid, cid, scope, i; auto|].
      exact (HN _ _ _ _ _ _ I1 I2 (wev_eq W _ _ _ _ _ HW (eq_sym Hs')) Hi).
  Qed.
End Revoke.

Definition access_ans (e : event) : option (string * dres oauthtoken) :=
  match e with Ev o a => (match o as o0 return ans o0 -> option (string * dres oauthtoken) with OFindByAccess c => fun a => Some (c, a) | _ => fun _ => None end) a end.

(** ** What goidc acts under it was told about *)
Definition told_about (past : list event) (i : authinfo) : Prop :=
  (exists id, In (Ev (OFindActiveInfo id) (Some i, None)) past) \/
  (exists uid cid scope, In (Ev (OCreateInfo uid cid scope) (Some i, None)) past) \/
  (exists uid cid, In (Ev (OFindInfo uid cid) (Some i, None)) past /\ ai_active i = true).

Lemma knows_told past i uid cid : knows past i uid cid -> told_about past i.
Proof. intros [(sc & H)|[H Ha]]; [right; left; eauto|right; right; eauto]. Qed.

Lemma acted_told id p past q : goidc p -> steps p past q -> acted_under id past ->
  exists i, ai_id i = id /\ told_about past i.
Proof.
  intros HG HS [i b a HI Hi|i y a HI Hi|i k a HI Hi]; exists i; (split; [exact Hi|]).
  - destruct (goidc_create_token _ _ _ _ _ _ HG HS HI) as [(code & x & _ & H)|(uid & cid & _ & H)].
    + left. eauto.
    + eapply knows_told; eauto.
  - destruct (goidc_stored_session _ _ _ _ _ _ HG HS HI) as (uid & cid & _ & H). eapply knows_told; eauto.
  - destruct (goidc_refresh _ _ _ _ _ _ HG HS HI) as [_ H]. left. eauto.
Qed.

Lemma told_says id past i : (forall e, In e past -> says id e) -> told_about past i -> ai_id i <> id.
Proof.
  intros HS [(id' & H)|[(uid & cid & sc & H)|(uid & cid & H & Ha)]].
  - destruct (HS _ H) as (X & _). destruct (X _ _ eq_refl) as [-> Y]. exact Y.
  - destruct (HS _ H) as (_ & _ & X). exact (X _ _ _ _ eq_refl).
  - intros E. destruct (HS _ H) as (_ & X & _). specialize (X _ _ _ eq_refl E). congruence.
Qed.

(* what was served was looked up: the authorization of what was presented was active *)
Lemma served_told id p past q : steps p past q -> served_under id p past ->
  exists i, In (Ev (OFindActiveInfo id) (Some i, None)) past.
Proof.
  intros HS [r r' t k HL HI Hi|code x HR HI Hi|J te r k Hp HB HR H2 HI Hi].
  - destruct (through_live _ _ _ _ HL) as (t' & k' & now & info & _ & E & _). rewrite E in HI |- *.
    assert (k' = k) as ->.
    { apply (in_map access_ans) in HI. cbn [map access_ans live_calls In] in HI.
      destruct HI as [X|[X|[X|[]]]]; try discriminate X. injection X as _ X. exact X. }
    exists info. rewrite <- Hi. simpl. auto.
  - destruct HR as [(J & te & r & -> & HB & HReg & <-) H2].
    destruct (redeemed_calls _ _ _ _ _ HB HReg HS H2) as (c & now & sess & info & tok & ta & th & rest & HA & -> & HD & _ & more & HC & HM).
    assert (X : In (Ev (OFindSession (form_value r "code")) (Some x, None)) (data_calls th)).
    { apply in_app_or in HI. destruct HI as [HI|[HI|HI]].
      - exfalso. pose proof (authenticated_ops _ _ _ _ _ HA) as (_ & _ & HO & _). apply HO in HI. discriminate HI.
      - discriminate HI.
      - apply in_app_or in HI. destruct HI as [HI|HI]; [apply filter_In; auto|exfalso].
        assert (Y : In (Ev (OFindSession (form_value r "code")) (Some x, None)) (data_calls rest)) by (apply filter_In; auto).
        rewrite HD in Y. exact Y. }
    assert (sess = x) as ->.
    { rewrite HC in X. apply (in_map sess_ans) in X. unfold found_calls in X. cbn [app map sess_ans In] in X.
      destruct X as [X|[X|[X|[X|X]]]]; try discriminate X; [injection X as X; exact X|].
      destruct HM as [->|(iss & ->)]; simpl in X; [contradiction|]. destruct X as [X|[]]; discriminate X. }
    exists info. rewrite <- Hi. apply in_or_app. right. right. apply in_or_app. left.
    assert (Y : In (Ev (OFindActiveInfo (as_auth_id x)) (Some info, None)) (data_calls th)) by (rewrite HC; simpl; auto).
    apply filter_In in Y. exact (proj1 Y).
  - subst p. destruct (steps_prefix _ _ _ HS) as (t & z & He).
    assert (H2' : In 200%Z (statuses (past ++ t))).
    { rewrite statuses_app. apply in_or_app. auto. }
    destruct (refresh_sound _ _ _ _ _ HB HR He H2') as (c & now & th & rs & (ta & l & HA & Et & H0 & Hl & Hh) & old & info & tok & _ & HC & _).
    assert (X : In (Ev (OFindByRefresh (form_value r "refresh_token")) (Some k, None)) (data_calls th)).
    { assert (HI' : In (Ev (OFindByRefresh (form_value r "refresh_token")) (Some k, None)) (past ++ t)) by (apply in_or_app; auto).
      rewrite Et in HI'. apply in_app_or in HI'. destruct HI' as [HI'|[HI'|HI']].
      - exfalso. pose proof (authenticated_ops _ _ _ _ _ HA) as (_ & _ & HO & _). apply HO in HI'. discriminate HI'.
      - discriminate HI'.
      - apply in_app_or in HI'. destruct HI' as [HI'|HI']; [apply filter_In; auto|exfalso].
        assert (Y : In (Ev (OFindByRefresh (form_value r "refresh_token")) (Some k, None)) (data_calls l)) by (apply filter_In; auto).
        rewrite Hl in Y. exact Y. }
    assert (old = k) as ->.
    { rewrite HC in X. apply (in_map refresh_ans) in X. unfold refresh_found in X. cbn [app map refresh_ans In] in X.
      destruct X as [X|[X|[X|[]]]]; try discriminate X. injection X as X. exact X. }
    (* the status was written after the lookups *)
    exists info. rewrite <- Hi.
    assert (Y : In (Ev (OFindActiveInfo (ot_auth_id k)) (Some info, None)) (data_calls th)) by (rewrite HC; simpl; auto).
    apply filter_In in Y. destruct Y as [Y _].
    assert (HP : exists l1, past = (ta ++ Ev ONow now :: th ++ l1)%list).
    { destruct (status_event _ _ H2) as (q1 & a & q2 & ->). rewrite <- app_assoc in Et. cbn [app] in Et.
      destruct (no_http_prefix (OStatus 200) a eq_refl (ta ++ Ev ONow now :: th) q1 (q2 ++ t) l) as [m Hm].
      { rewrite <- app_assoc. exact Et. }
      { exact H0. }
      subst q1. eexists. rewrite <- !app_assoc. reflexivity. }
    destruct HP as (l1 & ->). apply in_or_app. right. right. apply in_or_app. auto.
Qed.
