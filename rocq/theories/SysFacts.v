(** * Invariants over histories and interleavings. *)
From Coq Require Import Lia.
From Verif Require Import Hoare WpTac Core World Spec TokenSpec OAuthError Assertion Grants TokenEndpoint GrantFacts TokenFacts
  TokenProofs LogFacts TokenMore SysSpec.

Lemma rsteps_steps {S A} (W : rworld S) s (p : prog A) tr p' s' : rsteps W s p tr p' s' -> steps p tr p'.
Proof. induction 1; constructor; auto. Qed.

Lemma rrun_rsteps {S A} (W : rworld S) s (p : prog A) tr r s' : rrun W s p tr r s' ->
  exists p', rsteps W s p tr p' s' /\ match r with Done a => p' = Ret a | Panicked => p' = Panic end.
Proof.
  induction 1 as [s a|s|s o k x s1 tr r s2 H1 H2 (p' & IH1 & IH2)].
  - exists (Ret a). split; [constructor|auto].
  - exists Panic. split; [constructor|auto].
  - exists p'. split; [econstructor; eauto|auto].
Qed.

(** Every event of an interleaving is a transition. *)
Lemma psteps_events {S} (W : rworld S) (c0 c : S * list (thread unit)) : psteps W c0 c ->
  forall s0 progs, c0 = (s0, map start progs) -> forall o a, In (Ev o a) (all_events (snd c)) -> exists s s', W s o a s'.
Proof.
  induction 1 as [c|c1 c2 c3 H1 IH H2]; intros s0 progs E o a HI.
  - exfalso. subst. simpl in HI. unfold all_events in HI. apply in_flat_map in HI. destruct HI as (th & HI & HX).
    apply in_map_iff in HI. destruct HI as (p & <- & _). exact HX.
  - destruct H2 as [s s' before past o' k x after HW]. cbn [snd] in *.
    assert (HC : In (Ev o a) (all_events (before ++ Thread past (Vis o' k) :: after)) \/ Ev o' x = Ev o a).
    { unfold all_events in *. rewrite !flat_map_app in *. cbn [flat_map th_past] in *. rewrite !in_app_iff in *.
      simpl in HI. tauto. }
    destruct HC as [HC|HC]; [eapply IH; eauto|].
    exists s, s'. change (match Ev o a with Ev o a => W s o a s' end). rewrite <- HC. exact HW.
Qed.

(** ** What a successful exchange did *)

Lemma no_http_prefix o x : is_http o = true -> forall d (a b e : list event),
  (a ++ Ev o x :: b = d ++ e)%list -> http_ops d = [] -> exists m, a = (d ++ m)%list.
Proof.
  intros HO. induction d as [|z d IH]; intros a b e H HD; [exists a; reflexivity|].
  destruct a as [|y a]; simpl in H.
  - injection H as E _. subst z. unfold http_ops in HD. simpl in HD. rewrite HO in HD. discriminate.
  - injection H as -> H.
    assert (HD' : http_ops d = []).
    { unfold http_ops in *. simpl in HD. destruct (is_http (ev_op z)); [discriminate|exact HD]. }
    destruct (IH _ _ _ H HD') as [m ->]. exists m. reflexivity.
Qed.

Lemma data_in tr ev : In ev (data_calls tr) -> In ev tr.
Proof. intros H. apply filter_In in H. tauto. Qed.

(** A prefix of a run that has answered with success contains the calls of the
    exchange. *)
Lemma redeemed_calls J te r past p' :
  only_bundled J te -> registered te (form_value r "grant_type") (authorization_code J) ->
  steps (token_handler J te r) past p' -> In 200%Z (statuses past) ->
  exists c now sess info tok ta th rest,
    authenticated J te r c ta /\ past = (ta ++ Ev ONow now :: th ++ rest)%list /\
    data_calls rest = [] /\ code_checks r c sess info /\
    exists more, data_calls th = (found_calls r sess info ++
      [Ev (OCreateToken (Some info) true) (Some tok, None); Ev (ODisable sess) None] ++ more)%list /\
      (more = [] \/ exists iss, more = [Ev OIssuer iss]).
Proof.
  intros HB HR HS H200. destruct (steps_prefix _ _ _ HS) as (tr' & res & He).
  assert (HT : In 200%Z (statuses (past ++ tr'))) by (rewrite statuses_app; apply in_or_app; auto).
  destruct (code_exchange_sound _ _ _ _ _ HB HR He HT) as (c & now & th & rs & HSv & HC).
  destruct HSv as (ta & l & HA & Htr & Hh & Hl & Hs).
  destruct (status_event _ _ H200) as (q1 & a & q2 & ->).
  rewrite <- app_assoc in Htr. cbn [app] in Htr.
  destruct (no_http_prefix (OStatus 200) a eq_refl (ta ++ Ev ONow now :: th) q1 (q2 ++ tr') l) as [m Hm].
  { rewrite <- app_assoc. exact Htr. }
  { exact Hh. }
  subst q1. destruct HC as (sess & info & tok & HCk & _ & _ & _ & _ & more & Hdc & HM).
  exists c, now, sess, info, tok, ta, th, (m ++ Ev (OStatus 200) a :: q2)%list.
  split; [exact HA|]. split; [rewrite <- !app_assoc; reflexivity|]. split.
  - assert (E : l = (m ++ Ev (OStatus 200) a :: q2 ++ tr')%list).
    { rewrite <- !app_assoc in Htr. apply app_inv_head in Htr. cbn [app] in Htr. injection Htr as Htr.
      rewrite <- ?app_assoc in Htr. apply app_inv_head in Htr. auto. }
    rewrite E in Hl. change (Ev (OStatus 200) a :: q2 ++ tr')%list with ((Ev (OStatus 200) a :: q2) ++ tr')%list in Hl.
    rewrite !data_calls_app in Hl. rewrite data_calls_app. apply app_eq_nil in Hl. destruct Hl as [H1 H2].
    apply app_eq_nil in H2. destruct H2 as [H2 _]. rewrite H1, H2. reflexivity.
  - split; [exact HCk|]. exists more. split; [exact Hdc|].
    destruct HM as [(_ & iss & cs & -> & _)|(_ & -> & _)]; eauto.
Qed.

Lemma found_in r sess info rest th : data_calls th = (found_calls r sess info ++ rest)%list ->
  In (Ev (OFindSession (form_value r "code")) (Some sess, None)) th /\
  In (Ev (OFindActiveInfo (as_auth_id sess)) (Some info, None)) th.
Proof. intros H. split; apply data_in; rewrite H; simpl; auto. Qed.

(** ** One step *)

Section Laws.
  Context {S : Type} (W : rworld S) (ok : S -> Prop) (live : S -> string -> bool).
  Hypothesis L : code_store W ok live.

  (* successful DisableSession of the session of [code] *)
  Definition disables (code : string) (e : event) : bool :=
    match e with
    | Ev o a => (match o as o0 return ans o0 -> bool with
                 | ODisable x => fun a => match a with None => String.eqb (as_code x) code | Some _ => false end
                 | _ => fun _ => false
                 end) a
    end.
  Definition disabled_times (code : string) (tr : list event) : nat := length (filter (disables code) tr).

  Lemma live_step s o a s' code : ok s -> W s o a s' ->
    (Nat.b2n (live s' code) <= Nat.b2n (live s code) + (if stores code o then 1 else 0))%nat.
  Proof.
    intros HO HW. destruct (live s' code) eqn:E'; [|simpl; lia]. destruct (live s code) eqn:E; [simpl; lia|].
    rewrite (law_store _ _ _ L _ _ _ _ _ HO HW E E'). simpl. lia.
  Qed.

  Lemma strict_step s o a s' code : strict_disable W ok live -> ok s -> W s o a s' ->
    (Nat.b2n (live s' code) + (if disables code (Ev o a) then 1 else 0)
     <= Nat.b2n (live s code) + (if stores code o then 1 else 0))%nat.
  Proof.
    intros HS HO HW. pose proof (live_step _ _ _ _ code HO HW) as HL.
    destruct (disables code (Ev o a)) eqn:ED; [|lia].
    destruct o; try discriminate ED. simpl in ED. simpl in a. destruct a; [discriminate|].
    apply String.eqb_eq in ED. subst code. rewrite (law_disable _ _ _ L _ _ _ HO HW), (HS _ _ _ HO HW). simpl. lia.
  Qed.

  (** ** Sequential runs *)

  Lemma rsteps_ok s p (tr : list event) (p' : prog unit) s' : rsteps W s p tr p' s' -> ok s -> ok s'.
  Proof. induction 1; auto. intros. apply IHrsteps. eapply law_ok; eauto. Qed.

  Lemma rsteps_live s (p : prog unit) tr p' s' code : rsteps W s p tr p' s' -> ok s ->
    (Nat.b2n (live s' code) <= Nat.b2n (live s code) + stored_times code tr)%nat.
  Proof.
    induction 1 as [s p|s o k x s1 tr p' s2 HW HR IH]; intros HO; [unfold stored_times; simpl; lia|].
    pose proof (live_step _ _ _ _ code HO HW) as H1. specialize (IH (law_ok _ _ _ L _ _ _ _ HO HW)).
    unfold stored_times in *. simpl. destruct (stores code o); simpl; lia.
  Qed.

  Definition wev (s : S) (e : event) (s' : S) : Prop := match e with Ev o a => W s o a s' end.
  Lemma rsteps_inv s (p : prog unit) tr p' s' : rsteps W s p tr p' s' ->
    match tr with
    | [] => p' = p /\ s' = s
    | e :: t => exists q s1, wev s e s1 /\ rsteps W s1 q t p' s'
    end.
  Proof. destruct 1; [auto|]. exists (k x), s1. auto. Qed.
  Lemma rsteps_split s (p : prog unit) t1 t2 p' s' : rsteps W s p (t1 ++ t2) p' s' ->
    exists q s1, rsteps W s p t1 q s1 /\ rsteps W s1 q t2 p' s'.
  Proof.
    intros H. remember (t1 ++ t2)%list as tr eqn:E. revert t1 E.
    induction H as [s p|s o k x s1 tr p' s2 HW HR IH]; intros t1 E.
    - symmetry in E. apply app_eq_nil in E. destruct E as [-> ->]. exists p, s. split; constructor.
    - destruct t1 as [|e t1].
      + simpl in E. subst t2. exists (Vis o k), s. split; [constructor|econstructor; eauto].
      + simpl in E. injection E as <- E. destruct (IH t1 E) as (q & s3 & H1 & H2).
        exists q, s3. split; [econstructor; eauto|exact H2].
  Qed.

  (** A successful exchange turns a redeemable code into a used one. *)
  Lemma redeem_run s p past p' s' code : rsteps W s p past p' s' -> ok s -> redeemed p past code ->
    live s code = true /\ live s' code = false.
  Proof.
    intros HR HO [(J & te & r & -> & HB & HG & HC) H200].
    destruct (redeemed_calls _ _ _ _ _ HB HG (rsteps_steps _ _ _ _ _ _ HR) H200)
      as (c & now & sess & info & tok & ta & th & rest & HA & HP & Hrest & HCk & more & Hdc & Hmore).
    assert (NS : forall ev, In ev past -> stores code (ev_op ev) = false).
    { intros ev HI. destruct (stores code (ev_op ev)) eqn:E; [exfalso|reflexivity].
      assert (HD : is_data (ev_op ev) = true) by (destruct (ev_op ev); try discriminate E; reflexivity).
      rewrite HP in HI. apply in_app_or in HI. destruct HI as [HI|[<-|HI]]; [|discriminate|].
      - destruct (authenticated_ops _ _ _ _ _ HA) as (_ & _ & HX & _). apply HX in HI.
        destruct (ev_op ev); try discriminate E; discriminate HI.
      - apply in_app_or in HI. destruct HI as [HI|HI].
        + assert (HX : In ev (data_calls th)) by (apply filter_In; auto). rewrite Hdc in HX.
          simpl in HX. destruct HX as [<-|[<-|[<-|[<-|HX]]]]; try discriminate E.
          destruct Hmore as [->|[iss ->]]; [destruct HX|]. destruct HX as [<-|[]]. discriminate E.
        + assert (HX : In ev (data_calls rest)) by (apply filter_In; auto). rewrite Hrest in HX. destruct HX. }
    assert (NS0 : forall a b, past = (a ++ b)%list -> stored_times code a = 0%nat /\ stored_times code b = 0%nat).
    { assert (Z0 : forall l, (forall ev, In ev l -> stores code (ev_op ev) = false) -> stored_times code l = 0%nat).
      { unfold stored_times. induction l as [|e l IH]; intros H; [reflexivity|]. simpl. rewrite (H e) by (simpl; auto).
        apply IH. intros. apply H. simpl. auto. }
      intros a b E. split; apply Z0; intros ev HI; apply NS; rewrite E; apply in_or_app; auto. }
    (* the session was found *)
    assert (HL : live s code = true /\ as_code sess = code).
    { assert (HI : In (Ev (OFindSession code) (Some sess, None)) past).
      { rewrite HP, <- HC. apply in_or_app. right. right. apply in_or_app. left.
        eapply (proj1 (found_in _ _ _ _ _ Hdc)). }
      apply in_split in HI. destruct HI as (t1 & t2 & E). pose proof HR as HR'. rewrite E in HR'.
      destruct (rsteps_split _ _ _ _ _ _ HR') as (q & s1 & R1 & R2). apply rsteps_inv in R2.
      destruct R2 as (q2 & s2 & HW & _). simpl in HW.
      destruct (law_find _ _ _ L _ _ _ _ (rsteps_ok _ _ _ _ _ R1 HO) HW) as [H1 H2]. split; [|exact H2].
      pose proof (rsteps_live _ _ _ _ _ code R1 HO) as HX. rewrite H1, (proj1 (NS0 _ _ E)) in HX.
      destruct (live s code); [reflexivity|simpl in HX; lia]. }
    destruct HL as [HL HCode]. split; [exact HL|].
    assert (HI : In (Ev (ODisable sess) None) past).
    { rewrite HP. apply in_or_app. right. right. apply in_or_app. left. apply data_in. rewrite Hdc. simpl. auto. }
    apply in_split in HI. destruct HI as (t1 & t2 & E). pose proof HR as HR'. rewrite E in HR'.
    destruct (rsteps_split _ _ _ _ _ _ HR') as (q & s1 & R1 & R2). apply rsteps_inv in R2.
    destruct R2 as (q2 & s2 & HW & R3). simpl in HW.
    pose proof (rsteps_ok _ _ _ _ _ R1 HO) as HO1. pose proof (law_ok _ _ _ L _ _ _ _ HO1 HW) as HO2.
    pose proof (law_disable _ _ _ L _ _ _ HO1 HW) as HD. rewrite HCode in HD.
    pose proof (rsteps_live _ _ _ _ _ code R3 HO2) as HX. rewrite HD in HX.
    assert (E2 : past = ((t1 ++ [Ev (ODisable sess) None]) ++ t2)%list) by (rewrite <- app_assoc; exact E).
    rewrite (proj2 (NS0 _ _ E2)) in HX. destruct (live s' code); [simpl in HX; lia|reflexivity].
  Qed.

  (** Selecting entries of a list by position. *)
  Lemma history_bound s l s' code : history W s l s' -> ok s ->
    forall is, NoDup is ->
    (forall i, In i is -> exists p tr, nth_error l i = Some (p, tr) /\ redeemed p tr code) ->
    (length is + Nat.b2n (live s' code) <= Nat.b2n (live s code) + stored_times code (flat_map snd l))%nat.
  Proof.
    induction 1 as [s|s p tr p' s1 l s2 HR HH IH]; intros HO is HN HI.
    - destruct is as [|i is]; [simpl; lia|]. destruct (HI i (or_introl eq_refl)) as (p & tr & H & _). destruct i; discriminate.
    - pose proof (rsteps_ok _ _ _ _ _ HR HO) as HO1.
      (* positions after the first *)
      set (js := map pred (filter (fun i => negb (Nat.eqb i 0)) is)).
      assert (HJ : NoDup js).
      { unfold js. clear - HN. induction HN as [|i is HNI HN IH]; [constructor|]. simpl. destruct (Nat.eqb i 0) eqn:E; [exact IH|].
        simpl. constructor; [|exact IH]. intros HX. apply in_map_iff in HX. destruct HX as (k & K1 & K2).
        apply filter_In in K2. destruct K2 as [K2 K3]. apply negb_true_iff, Nat.eqb_neq in K3. apply Nat.eqb_neq in E.
        assert (k = i) by lia. subst. contradiction. }
      assert (HI' : forall j, In j js -> exists p tr, nth_error l j = Some (p, tr) /\ redeemed p tr code).
      { intros j HX. unfold js in HX. apply in_map_iff in HX. destruct HX as (k & <- & K2).
        apply filter_In in K2. destruct K2 as [K2 K3]. apply negb_true_iff, Nat.eqb_neq in K3.
        destruct (HI k K2) as (q & t & H1 & H2). destruct k; [lia|]. exists q, t. auto. }
      specialize (IH HO1 js HJ HI').
      assert (HLen : (length is <= length js + (if in_dec Nat.eq_dec 0%nat is then 1 else 0))%nat).
      { unfold js. rewrite map_length. clear - HN. induction HN as [|i is HNI HN IH]; [simpl; lia|].
        cbn [filter length]. destruct (in_dec Nat.eq_dec 0%nat (i :: is)) as [X|X]; destruct (in_dec Nat.eq_dec 0%nat is) as [Y|Y];
          destruct (Nat.eqb_spec i 0) as [E|E]; cbn [negb length]; try lia; try (subst; contradiction);
          exfalso; simpl in X; intuition. }
      pose proof (rsteps_live _ _ _ _ _ code HR HO) as HL. simpl. unfold stored_times in *. rewrite filter_app, app_length.
      destruct (in_dec Nat.eq_dec 0%nat is) as [X|X]; [|lia].
      destruct (HI 0%nat X) as (q & t & H1 & H2). simpl in H1. injection H1 as <- <-.
      destruct (redeem_run _ _ _ _ _ code HR HO H2) as [K1 K2]. rewrite K1, K2 in *. simpl in *. lia.
  Qed.

  (** ** Interleavings *)

  Lemma psteps_inv c0 c : psteps W c0 c -> forall s0 progs, c0 = (s0, map start progs) -> ok s0 ->
    ok (fst c) /\
    Forall2 (fun (p : prog unit) th => steps p (th_past th) (th_rest th)) progs (snd c) /\
    (forall e, In e (all_events (snd c)) -> forall code x,
       e = Ev (OFindSession code) (Some x, None) -> as_code x = code).
  Proof.
    assert (SA : forall (p : prog unit) tr o k x, steps p tr (Vis o k) -> steps p (tr ++ [Ev o x]) (k x)).
    { intros p tr o k x H. remember (Vis o k) as q eqn:E. induction H as [q|o0 k0 x0 tr p' H IH].
      - subst. simpl. repeat constructor.
      - simpl. constructor. auto. }
    induction 1 as [c|c1 c2 c3 H1 IH H2]; intros s0 progs E HO.
    - subst. simpl. split; [exact HO|]. split.
      + clear. induction progs as [|p l IH]; constructor; [constructor|exact IH].
      + intros e HI. exfalso. unfold all_events in HI. apply in_flat_map in HI. destruct HI as (th & HI & HX).
        apply in_map_iff in HI. destruct HI as (p & <- & _). exact HX.
    - destruct (IH s0 progs E HO) as (I1 & I2 & I3). clear IH.
      destruct H2 as [s s' before past o k x after HW]. simpl in *. split; [eapply law_ok; eauto|]. split.
      + apply Forall2_app_inv_r in I2. destruct I2 as (l1 & l2 & F1 & F2 & ->).
        inversion F2 as [|p th l2' after' HS HF]; subst. apply Forall2_app; [exact F1|]. constructor; [|exact HF].
        simpl in *. apply SA. exact HS.
      + intros e HI code y EE. unfold all_events in *. rewrite flat_map_app in *. simpl in *.
        apply in_app_or in HI. destruct HI as [HI|HI].
        { apply (I3 e); [apply in_or_app; auto|exact EE]. }
        rewrite <- app_assoc in HI. apply in_app_or in HI. destruct HI as [HI|[HI|HI]].
        * apply (I3 e); [apply in_or_app; right; apply in_or_app; auto|exact EE].
        * assert (HWe : wev s (Ev o x) s') by exact HW. rewrite HI, EE in HWe. simpl in HWe.
          destruct (law_find _ _ _ L _ _ _ _ I1 HWe) as [_ HC]. exact HC.
        * apply (I3 e); [apply in_or_app; right; apply in_or_app; auto|exact EE].
  Qed.

  Lemma psteps_bound c0 c code : psteps W c0 c -> forall s0 progs, c0 = (s0, map start progs) -> ok s0 ->
    strict_disable W ok live ->
    (disabled_times code (all_events (snd c)) + Nat.b2n (live (fst c) code)
     <= Nat.b2n (live s0 code) + stored_times code (@all_events unit (snd c)))%nat.
  Proof.
    induction 1 as [c|c1 c2 c3 H1 IH H2]; intros s0 progs E HO HS.
    - subst. simpl. assert (X : @all_events unit (map start progs) = []).
      { clear. induction progs as [|p l IH]; [reflexivity|exact IH]. }
      rewrite X. unfold disabled_times, stored_times. simpl. lia.
    - specialize (IH s0 progs E HO HS). destruct (psteps_inv _ _ H1 _ _ E HO) as (I1 & _ & _).
      destruct H2 as [s s' before past o k x after HW]. simpl in *.
      pose proof (strict_step _ _ _ _ code HS I1 HW) as HX.
      unfold all_events, disabled_times, stored_times in *. rewrite !flat_map_app in *. cbn [flat_map th_past] in *.
      rewrite !filter_app, !app_length in *. cbn [filter ev_op] in *.
      destruct (disables code (Ev o x)), (stores code o); cbn [length] in *; lia.
  Qed.

  (* as many distinct threads as events *)
  Lemma threads_bound (P : event -> bool) (ths : list (thread unit)) is : NoDup is ->
    (forall i, In i is -> exists th, nth_error ths i = Some th /\ exists e, In e (th_past th) /\ P e = true) ->
    (length is <= length (filter P (all_events ths)))%nat.
  Proof.
    intros HN HI.
    set (good := fun th : thread unit => existsb P (th_past th)).
    assert (A1 : (length is <= length (filter good ths))%nat).
    { set (idx := filter (fun i => match nth_error ths i with Some th => good th | None => false end) (seq 0 (length ths))).
      assert (B1 : (length is <= length idx)%nat).
      { apply NoDup_incl_length; [exact HN|]. intros i Hi. destruct (HI i Hi) as (th & H1 & e & H2 & H3).
        apply filter_In. split.
        - apply in_seq. split; [lia|]. simpl. apply nth_error_Some. congruence.
        - rewrite H1. apply existsb_exists. eauto. }
      assert (B2 : length idx = length (filter good ths)).
      { unfold idx. clear. 
        assert (G : forall k, length (filter (fun i => match nth_error ths (i - k) with Some th => good th | None => false end)
                       (seq k (length ths))) = length (filter good ths)).
        { induction ths as [|th l IH]; intros k; [reflexivity|]. cbn [length seq filter].
          rewrite Nat.sub_diag. cbn [nth_error].
          assert (X : filter (fun i => match nth_error (th :: l) (i - k) with Some th => good th | None => false end) (seq (1 + k) (length l))
                    = filter (fun i => match nth_error l (i - (1 + k)) with Some th => good th | None => false end) (seq (1 + k) (length l))).
          { apply filter_ext_in. intros i Hi. apply in_seq in Hi. replace (i - k)%nat with (1 + (i - (1 + k)))%nat by lia. reflexivity. }
          change (seq (1 + k) (length l)) with (seq (Datatypes.S k) (length l)) in X. 
          pose proof (IH (1 + k)%nat) as Y. change (seq (1 + k) (length l)) with (seq (Datatypes.S k) (length l)) in Y.
          rewrite <- X in Y. destruct (good th); cbn [length]; rewrite <- Y; reflexivity. }
        rewrite <- (G 0%nat). f_equal. apply filter_ext. intros i. rewrite Nat.sub_0_r. reflexivity. }
      lia. }
    assert (A2 : (length (filter good ths) <= length (filter P (all_events ths)))%nat).
    { clear. unfold all_events. induction ths as [|th l IH]; [simpl; lia|]. simpl. rewrite filter_app, app_length.
      destruct (good th) eqn:E; [|lia]. apply existsb_exists in E. destruct E as (e & H1 & H2).
      assert (X : In e (filter P (th_past th))) by (apply filter_In; auto).
      destruct (filter P (th_past th)); [destruct X|]. simpl. lia. }
    lia.
  Qed.

  Lemma interleaving_bound s0 progs s ths code : psteps W (s0, map start progs) (s, ths) -> ok s0 ->
    strict_disable W ok live ->
    forall is, NoDup is ->
    (forall i, In i is -> exists p th, nth_error progs i = Some p /\ nth_error ths i = Some th /\ redeemed p (th_past th) code) ->
    (length is + Nat.b2n (live s code) <= Nat.b2n (live s0 code) + stored_times code (all_events ths))%nat.
  Proof.
    intros HP HO HS is HN HI.
    pose proof (psteps_bound _ _ code HP _ _ eq_refl HO HS) as HB. simpl in HB.
    destruct (psteps_inv _ _ HP _ _ eq_refl HO) as (_ & I2 & I3). simpl in *.
    assert (HT : (length is <= disabled_times code (all_events ths))%nat); [|lia].
    apply threads_bound; [exact HN|]. intros i Hi. destruct (HI i Hi) as (p & th & H1 & H2 & [(J & te & r & -> & HB1 & HG & HC) H200]).
    exists th. split; [exact H2|].
    assert (HSt : steps (token_handler J te r) (th_past th) (th_rest th)).
    { clear - I2 H1 H2. revert i H1 H2. induction I2 as [|p th' l l' HS HF IH]; intros [|i] H1 H2; try discriminate; simpl in *.
      - injection H1 as ->. injection H2 as ->. exact HS.
      - eauto. }
    destruct (redeemed_calls _ _ _ _ _ HB1 HG HSt H200)
      as (c & now & sess & info & tok & ta & tg & rest & HA & HPa & Hrest & HCk & more & Hdc & Hmore).
    assert (HIn : forall e, In e (data_calls tg) -> In e (th_past th)).
    { intros e He. rewrite HPa. apply in_or_app. right. right. apply in_or_app. left. apply data_in. exact He. }
    exists (Ev (ODisable sess) None). split; [apply HIn; rewrite Hdc; simpl; auto|].
    simpl. apply String.eqb_eq. rewrite <- HC. eapply I3; [|reflexivity].
    unfold all_events. apply in_flat_map. exists th. split; [eapply nth_error_In; eauto|].
    apply HIn. rewrite Hdc. simpl. auto.
  Qed.
End Laws.
