(** * The bundled in-memory store satisfies the laws of SysSpec. *)
From Coq Require Import Lia.
From Verif Require Import Core World StrFacts Spec TestStore SysSpec.

Section Assoc.
  Context {K V : Type} (eqb : K -> K -> bool).
  Hypothesis eqb_eq : forall a b, eqb a b = true <-> a = b.

  Lemma eqb_refl' k : eqb k k = true.
  Proof. apply eqb_eq. reflexivity. Qed.

  Lemma aget_adel k k' (m : list (K * V)) : aget eqb k (adel eqb k' m) = if eqb k k' then None else aget eqb k m.
  Proof.
    induction m as [|[q v] m IH]; simpl; [destruct (eqb k k'); reflexivity|].
    destruct (eqb k' q) eqn:E1; simpl.
    - rewrite IH. apply eqb_eq in E1. subst q. destruct (eqb k k') eqn:E2; reflexivity.
    - rewrite IH. destruct (eqb k q) eqn:E2; [|reflexivity]. apply eqb_eq in E2. subst q.
      destruct (eqb k k') eqn:E3; [|reflexivity]. apply eqb_eq in E3. subst. rewrite eqb_refl' in E1. discriminate.
  Qed.
  Lemma aget_aput k k' v (m : list (K * V)) :
    aget eqb k (aput eqb k' v m) = if eqb k k' then Some v else aget eqb k m.
  Proof. unfold aput. simpl. destruct (eqb k k') eqn:E; [reflexivity|]. rewrite aget_adel, E. reflexivity. Qed.
  Lemma aget_in k v (m : list (K * V)) : aget eqb k m = Some v -> In (k, v) m.
  Proof.
    induction m as [|[q w] m IH]; simpl; [discriminate|]. destruct (eqb k q) eqn:E; intros H; [|auto].
    apply eqb_eq in E. injection H as ->. subst. auto.
  Qed.
  Lemma in_adel k p (m : list (K * V)) : In p (adel eqb k m) -> In p m /\ fst p <> k.
  Proof.
    unfold adel. intros H. apply filter_In in H. destruct H as [H1 H2]. split; [exact H1|].
    intros <-. rewrite eqb_refl' in H2. discriminate.
  Qed.
End Assoc.

Lemma seqb_eq a b : seqb a b = true <-> a = b.
Proof. apply String.eqb_eq. Qed.

Definition sget_adel {V} := @aget_adel string V seqb seqb_eq.
Definition sget_aput {V} := @aget_aput string V seqb seqb_eq.
Definition zget_aput {V} := @aget_aput Z V Z.eqb Z.eqb_eq.

(** Sessions are stored under their codes, authorizations under their ids, once,
    and ids are fresh. *)
Definition tidy (s : store) : Prop :=
  (forall code x, sget code (st_sessions s) = Some x -> as_code x = code) /\
  (forall id i, In (id, i) (st_infos s) -> ai_id i = id /\ (id < st_next_info s)%Z) /\
  NoDup (map fst (st_infos s)).

Definition has_session (s : store) (code : string) : bool :=
  match sget code (st_sessions s) with Some _ => true | None => false end.

Lemma nodup_get {V} id (i : V) (m : list (Z * V)) : NoDup (map fst m) -> In (id, i) m -> zget id m = Some i.
Proof.
  induction m as [|[k v] m IH]; simpl; intros HN HI; [destruct HI|]. inversion HN as [|? ? HK HM]; subst.
  destruct HI as [HI|HI].
  - injection HI as -> ->. unfold zget. simpl. rewrite Z.eqb_refl. reflexivity.
  - unfold zget in *. simpl. destruct (Z.eqb_spec id k) as [->|E]; [|auto].
    exfalso. apply HK. change k with (fst (k, i)). apply in_map. exact HI.
Qed.

Lemma nodup_adel {V} id (m : list (Z * V)) : NoDup (map fst m) -> NoDup (map fst (adel Z.eqb id m)).
Proof.
  unfold adel. induction m as [|[k v] m IH]; simpl; intros HN; [constructor|]. inversion HN as [|? ? HK HM]; subst.
  destruct (negb (id =? k)%Z); simpl; [|auto]. constructor; [|auto].
  intros HI. apply HK. apply in_map_iff in HI. destruct HI as (p & H1 & H2). apply filter_In in H2. apply in_map_iff. exists p. tauto.
Qed.

Lemma nodup_aput {V} id (v : V) (m : list (Z * V)) : NoDup (map fst m) -> NoDup (map fst (aput Z.eqb id v m)).
Proof.
  intros HN. unfold aput. simpl. constructor; [|apply nodup_adel; exact HN].
  intros HI. apply in_map_iff in HI. destruct HI as (p & H1 & H2). apply (in_adel Z.eqb Z.eqb_eq) in H2. tauto.
Qed.

Lemma tidy_step b s o a s' : tidy s -> sstep b s o a s' -> tidy s'.
Proof.
  intros (T1 & T2 & T3) H. destruct H; try (split; [exact T1|split; [exact T2|exact T3]]; fail).
  - (* CreateOrUpdateAuthInfo, known *)
    split; [exact T1|]. split; [|apply nodup_aput; exact T3].
    intros id' j HI. simpl in HI. destruct (T2 _ _ H) as [E1 E2].
    destruct HI as [HI|HI]; [injection HI as <- <-; simpl; auto|]. apply (in_adel Z.eqb Z.eqb_eq) in HI. destruct HI. auto.
  - split; [exact T1|]. split; [|apply nodup_aput; exact T3].
    intros id' j HI. simpl in HI. destruct HI as [HI|HI]; [injection HI as <- <-; simpl; lia|].
    apply (in_adel Z.eqb Z.eqb_eq) in HI. destruct HI as [HI _]. destruct (T2 _ _ HI). simpl. split; [auto|lia].
  - split; [|split; [exact T2|exact T3]]. intros code y HY. unfold sget in HY. cbn [set_sessions st_sessions] in HY. rewrite sget_aput in HY.
    destruct (seqb code (s_code x)) eqn:E; [|exact (T1 _ _ HY)]. injection HY as <-. simpl. symmetry. apply seqb_eq. exact E.
  - split; [|split; [exact T2|exact T3]]. intros code y HY. unfold sget in HY. cbn [set_sessions st_sessions] in HY. rewrite sget_adel in HY.
    destruct (seqb code (as_code x)); [discriminate|]. exact (T1 _ _ HY).
Qed.

(** Reading single transitions. *)
Definition reading (b : bool) (s : store) (o : op) : ans o -> store -> Prop :=
  match o with
  | OFindSession code => fun a s' => s' = s /\
      a = match sget code (st_sessions s) with Some x => (Some x, None) | None => failed end
  | OFindInfo _ _ => fun a s' => s' = s /\ a = (None, Some ErrUnsupported)
  | OFindActiveInfo id => fun a s' => s' = s /\
      a = match zget id (st_infos s) with Some i => (Some i, None) | None => failed end
  | OCreateInfo uid cid scope => fun a s' =>
      exists i, a = (Some i, None) /\ ai_user i = uid /\ ai_client i = cid /\
        exists n, s' = set_infos s n (aput Z.eqb (ai_id i) i (st_infos s)) /\
        ((exists j, In (ai_id i, j) (st_infos s) /\ same_user_client uid cid (ai_id i, j) = true) \/
         (ai_id i = st_next_info s))
  | OCreateSession i x => fun a s' => exists j, i = Some j /\ a = None /\
      s' = set_sessions s (aput seqb (s_code x) (stored_session j x) (st_sessions s))
  | ODisable x => fun a s' =>
      (a = None /\ s' = set_sessions s (adel seqb (as_code x) (st_sessions s)) /\
       (b = true -> has_session s (as_code x) = true)) \/
      (a = Some ErrFailed /\ s' = s /\ b = true /\ has_session s (as_code x) = false)
  | _ => fun _ s' => st_sessions s' = st_sessions s /\ st_infos s' = st_infos s
  end.

Lemma sstep_reading b s o a s' : tidy s -> sstep b s o a s' -> reading b s o a s'.
Proof.
  intros (_ & T2 & _) H. destruct H; simpl; auto.
  - destruct (T2 _ _ H) as [E _]. pose proof H0 as HS. unfold same_user_client in H0. simpl in H0.
    apply andb_true_iff in H0. destruct H0 as [H1 H2]. apply Z.eqb_eq in H1. apply seqb_eq in H2.
    exists i'. split; [reflexivity|]. split; [exact H1|]. split; [exact H2|]. exists (st_next_info s). subst id.
    split; [reflexivity|]. left. exists i. auto.
  - exists i'. split; [reflexivity|]. split; [reflexivity|]. split; [reflexivity|]. eexists. split; [reflexivity|]. right. reflexivity.
  - exists i. auto.
  - left. split; [reflexivity|]. split; [reflexivity|]. intros E. specialize (H E). unfold has_session.
    destruct (sget (as_code x) (st_sessions s)); [reflexivity|contradiction].
  - right. split; [reflexivity|]. split; [reflexivity|]. split; [exact H|]. unfold has_session. rewrite H0. reflexivity.
Qed.

Lemma session_step b s o a s' code : tidy s -> sstep b s o a s' ->
  sget code (st_sessions s') =
  match o with
  | OCreateSession (Some i) x => if seqb code (s_code x) then Some (stored_session i x) else sget code (st_sessions s)
  | ODisable x => if seqb code (as_code x) then None else sget code (st_sessions s)
  | _ => sget code (st_sessions s)
  end.
Proof.
  intros HT H. apply sstep_reading in H; [|exact HT]. destruct o; simpl in H;
    try (destruct H as [H1 H2]; rewrite ?H1; congruence).
  - destruct H as (i & _ & _ & _ & n & -> & _). reflexivity.
  - destruct H as (j & -> & _ & ->). unfold sget. cbn [set_sessions st_sessions]. apply sget_aput.
  - destruct H as [(_ & -> & _)|(_ & -> & _ & E)].
    + unfold sget. cbn [set_sessions st_sessions]. apply sget_adel.
    + unfold has_session in E. destruct (seqb code (as_code s0)) eqn:E2; [|reflexivity].
      apply seqb_eq in E2. subst code. destruct (sget (as_code s0) (st_sessions s)); [discriminate|reflexivity].
Qed.

Lemma bundled_code_store b : code_store (sstep b) tidy has_session.
Proof.
  constructor.
  - intros s o a s'. apply tidy_step.
  - intros s code x s' HT H. pose proof (sstep_reading _ _ _ _ _ HT H) as [_ E]. unfold has_session.
    destruct (sget code (st_sessions s)) as [y|] eqn:E1; [|discriminate]. injection E as <-.
    split; [reflexivity|]. exact (proj1 HT _ _ E1).
  - intros s x s' HT H. unfold has_session. rewrite (session_step _ _ _ _ _ _ HT H).
    rewrite (proj2 (seqb_eq _ _) eq_refl). reflexivity.
  - intros s o a s' code HT H H1 H2. unfold has_session in *. rewrite (session_step _ _ _ _ _ _ HT H) in H2.
    destruct o; try congruence.
    + destruct i as [i|]; [|congruence]. unfold stores. destruct (seqb code (s_code s0)) eqn:E; [|congruence].
      apply seqb_eq in E. subst. apply String.eqb_refl.
    + destruct (seqb code (as_code s0)); congruence.
Qed.

Lemma bundled_strict : strict_disable (sstep true) tidy has_session.
Proof.
  intros s x s' HT H. apply sstep_reading in H; [|exact HT]. simpl in H.
  destruct H as [(_ & _ & H)|(H & _)]; [auto|discriminate].
Qed.

Lemma bundled_durable b : durable (sstep b) tidy has_session.
Proof.
  intros s o a s' code HT H H1 H2. unfold has_session in *. rewrite (session_step _ _ _ _ _ _ HT H) in H2.
  destruct o; try congruence.
  - destruct i as [i|]; [|congruence]. destruct (seqb code (s_code s0)); [congruence|congruence].
  - exists s0. split; [reflexivity|]. destruct (seqb code (as_code s0)) eqn:E; [|congruence].
    apply seqb_eq in E. auto.
Qed.

Lemma bundled_linked b :
  linked_store (sstep b) tidy (fun s code => sget code (st_sessions s)) (fun s id => zget id (st_infos s)).
Proof.
  constructor.
  - intros s o a s'. apply tidy_step.
  - intros s code x s' HT H. pose proof (sstep_reading _ _ _ _ _ HT H) as [_ E].
    destruct (sget code (st_sessions s)) as [y|] eqn:E1; [|discriminate]. congruence.
  - intros s o a s' code x HT H HX. rewrite (session_step _ _ _ _ _ _ HT H) in HX.
    pose proof (sstep_reading _ _ _ _ _ HT H) as HR.
    destruct o; try (left; exact HX).
    + simpl in HR. destruct HR as (j & -> & -> & _). destruct (seqb code (s_code s0)) eqn:E; [|left; exact HX].
      right. exists j, s0. injection HX as <-. apply seqb_eq in E. auto.
    + left. destruct (seqb code (as_code s0)); [discriminate|exact HX].
  - intros s id i s' HT H. pose proof (sstep_reading _ _ _ _ _ HT H) as [_ E].
    destruct (zget id (st_infos s)) as [y|] eqn:E1; [|discriminate]. injection E as <-. split; [reflexivity|].
    apply (aget_in Z.eqb Z.eqb_eq) in E1. destruct HT as (_ & T & _). exact (proj1 (T _ _ E1)).
  - intros s uid cid i s' HT H. pose proof (sstep_reading _ _ _ _ _ HT H) as [_ E]. discriminate.
  - intros s uid cid scope i s' HT H. pose proof (sstep_reading _ _ _ _ _ HT H) as (j & E & U & C & n & -> & _).
    injection E as <-. split; [|auto]. unfold zget. cbn [set_infos st_infos]. rewrite zget_aput, Z.eqb_refl. reflexivity.
  - intros s o a s' id i HT H HX. pose proof (sstep_reading _ _ _ _ _ HT H) as HR.
    assert (HSame : st_infos s' = st_infos s -> exists i', zget id (st_infos s') = Some i' /\ same_grant i i').
    { intros ->. exists i. split; [exact HX|split; reflexivity]. }
    destruct o; simpl in HR; try (apply HSame; destruct HR as [E1 E2]; congruence).
    + destruct HR as (j & _ & U & C & n & -> & HK). unfold zget. cbn [set_infos st_infos]. rewrite zget_aput.
      destruct (Z.eqb_spec id (ai_id j)) as [->|E].
      * destruct HT as (_ & T2 & T3). pose proof (aget_in Z.eqb Z.eqb_eq _ _ _ HX) as HI.
        destruct HK as [(k & K1 & K2)|K].
        -- rewrite (nodup_get _ _ _ T3 K1) in HX. injection HX as ->. exists j. split; [reflexivity|].
           unfold same_user_client in K2. simpl in K2. apply andb_true_iff in K2. destruct K2 as [K2 K3].
           apply Z.eqb_eq in K2. apply seqb_eq in K3. split; congruence.
        -- exfalso. destruct (T2 _ _ HI). lia.
      * exists i. split; [exact HX|split; reflexivity].
    + apply HSame. destruct HR as (j & _ & _ & ->). reflexivity.
    + apply HSame. destruct HR as [(_ & -> & _)|(_ & -> & _)]; reflexivity.
Qed.

Lemma find_info_never b s uid cid i s' : ~ sstep b s (OFindInfo uid cid) (Some i, None) s'.
Proof.
  intros H.
  assert (X : forall o a, sstep b s o a s' -> match o as o0 return ans o0 -> Prop with
     OFindInfo _ _ => fun a => a = (None, Some ErrUnsupported) | _ => fun _ => True end a).
  { intros o a HS. destruct HS; exact I || reflexivity. }
  specialize (X _ _ H). discriminate X.
Qed.
