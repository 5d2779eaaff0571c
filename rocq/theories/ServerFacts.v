(** Lemmas: the bundled server. *)
From Coq Require Import Lia.
From Verif Require Import StrFacts Core Utils World Spec TokenSpec TokenEndpoint TestStore TestServer ServerSpec.

Lemma snoc_inv {A} (h l : list A) a h0 x : (h ++ [a] = h0 ++ x :: l)%list -> (l = [] /\ h = h0 /\ a = x) \/ exists l', l = (l' ++ [a])%list /\ h = (h0 ++ x :: l')%list.
Proof.
  destruct l as [|b l] using rev_ind; intros E.
  - left. apply app_inj_tail in E. destruct E. auto.
  - right. exists l. change (h0 ++ x :: l ++ [b])%list with (h0 ++ (x :: l) ++ [b])%list in E. rewrite app_assoc in E.
    apply app_inj_tail in E. destruct E as [-> ->]. auto.
Qed.
Lemma since_snoc h a l : since (h ++ [a]) l -> (a = ClearAll /\ l = []) \/ exists l', l = (l' ++ [a])%list /\ a <> ClearAll /\ since h l'.
Proof.
  intros (HN & [<-|(h0 & E)]).
  - right. exists h. split; [reflexivity|]. rewrite in_app_iff in HN. split; [intros ->; apply HN; right; left; reflexivity|].
    split; [tauto|auto].
  - apply snoc_inv in E. destruct E as [(-> & _ & ->)|(l' & -> & ->)]; [auto|]. right. exists l'. rewrite in_app_iff in HN. split; [reflexivity|].
    split; [intros ->; apply HN; right; left; reflexivity|]. split; [tauto|]. right. exists h0. reflexivity.
Qed.

Lemma users_kept b s o a s' : sstep b s o a s' -> st_users s' = st_users s /\ st_clients s' = st_clients s.
Proof. destruct 1; split; reflexivity. Qed.

(** ** Users *)
Lemma user_created_snoc l a id n p : user_created (l ++ [a]) id n p <->
  user_created l id n p \/ (a = NewUser n p /\ id = Z.of_nat (length (filter is_new_user l))).
Proof.
  split.
  - intros (l1 & l2 & E & ->). apply snoc_inv in E. destruct E as [(-> & -> & ->)|(l' & -> & ->)]; [auto|]. left. exists l1, l'. auto.
  - intros [(l1 & l2 & -> & ->)|[-> ->]].
    + exists l1, (l2 ++ [a])%list. rewrite <- app_assoc. auto.
    + exists l, []. auto.
Qed.
Lemma user_created_lt l id n p : user_created l id n p -> (id < Z.of_nat (length (filter is_new_user l)))%Z.
Proof. intros (l1 & l2 & -> & ->). rewrite filter_app, app_length. cbn. lia. Qed.
Lemma count_snoc l a : Z.of_nat (length (filter is_new_user (l ++ [a]))) = (Z.of_nat (length (filter is_new_user l)) + if is_new_user a then 1 else 0)%Z.
Proof. rewrite filter_app, app_length. cbn. destruct (is_new_user a); cbn; lia. Qed.

Lemma users_spec h v : lives h v -> forall l, since h l ->
  sv_next_user v = Z.of_nat (length (filter is_new_user l)) /\
  forall id n p, In (id, n, p) (st_users (sv_store v)) <-> user_created l id n p.
Proof.
  assert (OTHER : forall l a (X : Z -> string -> string -> Prop) m, is_new_user a = false ->
    m = Z.of_nat (length (filter is_new_user l)) /\ (forall id n p, X id n p <-> user_created l id n p) ->
    m = Z.of_nat (length (filter is_new_user (l ++ [a]))) /\ (forall id n p, X id n p <-> user_created (l ++ [a]) id n p)).
  { intros l a X m Ha [H1 H2]. rewrite count_snoc, Ha. split; [lia|]. intros id n p. rewrite user_created_snoc, H2. split; [auto|].
    intros [H|[-> _]]; [exact H|discriminate Ha]. }
  induction 1 as [|h v n p H IH|h v o i s u H IH|h v i g H IH|h v H IH|h v H IH|h n s o a s' H IH HS]; intros l HL;
    try (apply since_snoc in HL; destruct HL as [[X ->]|(l' & -> & HN & HL)]; [try discriminate X|]).
  - destruct HL as [_ [<-|(h0 & E)]]; [|destruct h0; discriminate E]. split; [reflexivity|]. intros id n p. split; [intros []|]. intros (l1 & l2 & E & _). destruct l1; discriminate E.
  - destruct (IH l' HL) as [IH1 IH2]. cbn [create_user sv_next_user sv_store st_users]. rewrite count_snoc, IH1. split; [reflexivity|].
    intros id n' p'. rewrite user_created_snoc. cbn [In]. rewrite filter_In, IH2. cbn [fst]. split.
    + intros [E|[E _]]; [|auto]. injection E as <- -> ->. right. auto.
    + intros [E|[E ->]]; [|injection E as -> ->; auto]. right. split; [exact E|]. apply user_created_lt in E. apply negb_true_iff, Z.eqb_neq. lia.
  - apply OTHER; [reflexivity|]. exact (IH l' HL).
  - apply OTHER; [reflexivity|]. unfold allow. destruct (sget i (st_clients (sv_store v))); exact (IH l' HL).
  - apply OTHER; [reflexivity|]. exact (IH l' HL).
  - split; [reflexivity|]. intros id n p. split; [intros []|]. intros (l1 & l2 & E & _). destruct l1; discriminate E.
  - congruence.
  - apply OTHER; [reflexivity|]. destruct (users_kept _ _ _ _ _ HS) as [E _]. cbn [sv_next_user sv_store] in *. rewrite E. exact (IH l' HL).
Qed.

(** ** Clients *)
Lemma client_created_snoc l a id o s u later : client_created (l ++ [a]) id o s u later <->
  (a = NewClient o id s u /\ later = []) \/ (exists later', later = (later' ++ [a])%list /\ (forall o' s' u', a <> NewClient o' id s' u') /\ client_created l id o s u later').
Proof.
  split.
  - intros (l1 & E & HN). apply snoc_inv in E. destruct E as [(-> & -> & ->)|(l' & -> & ->)]; [auto|]. right. exists l'. split; [reflexivity|].
    split; [intros o' s' u' ->; apply (HN o' s' u'); rewrite in_app_iff; right; left; reflexivity|].
    exists l1. split; [reflexivity|]. intros o' s' u' HI. apply (HN o' s' u'). rewrite in_app_iff. auto.
  - intros [[-> ->]|(l' & -> & HA & l1 & -> & HN)].
    + exists l. split; [reflexivity|]. intros ? ? ? [].
    + exists l1. rewrite <- app_assoc. split; [reflexivity|]. intros o' s' u' HI. rewrite in_app_iff in HI. destruct HI as [HI|[HI|[]]]; [exact (HN _ _ _ HI)|exact (HA _ _ _ HI)].
Qed.
Lemma aget_aput k k' (c : client) m : sget k (aput seqb k' c m) = if k =s? k' then Some c else sget k m.
Proof.
  unfold sget, aput. cbn [aget]. destruct (k =s? k') eqn:E; [reflexivity|]. unfold adel. induction m as [|[k2 c2] m IH]; [reflexivity|]. cbn [filter fst].
  destruct (k' =s? k2) eqn:E2; cbn [negb aget].
  - rewrite IH. destruct (k =s? k2) eqn:E3; [|reflexivity]. apply seqb_eq in E2, E3. subst. rewrite seqb_refl in E. discriminate E.
  - destruct (k =s? k2); [reflexivity|exact IH].
Qed.
(* The store and the history agree about the client [id]. *)
Definition agree (m : list (string * client)) (l : list act) : Prop := forall id,
  match sget id m with
  | Some c => exists o s u later, client_created l id o s u later /\ behaves c id o s u later
  | None => forall o s u later, ~ client_created l id o s u later
  end.
Lemma agree_other m l a : (forall o i s u, a <> NewClient o i s u) -> (forall i g, a <> Allow i g) -> agree m l -> agree m (l ++ [a]).
Proof.
  intros H1 H2 H id. specialize (H id). destruct (sget id m) as [c|].
  - destruct H as (o & s & u & later & HC & HB). exists o, s, u, (later ++ [a])%list. split.
    + apply client_created_snoc. right. exists later. split; [reflexivity|]. split; [intros; apply H1|exact HC].
    + destruct HB. constructor; auto. intros g. rewrite bh_grant, in_app_iff. split; [auto|]. intros [X|[X|[]]]; [exact X|destruct (H2 _ _ X)].
  - intros o s u later X. apply client_created_snoc in X. destruct X as [[X _]|(later' & _ & _ & X)]; [exact (H1 _ _ _ _ X)|exact (H _ _ _ _ X)].
Qed.
Lemma new_client_behaves o i s u : behaves (test_client o i s u "RS256" (KRsaPriv 0) "my_service_key_id") i o s u [].
Proof.
  constructor; try reflexivity; cbn.
  - intros x. rewrite seqb_eq. split; auto.
  - intros x. rewrite seqb_eq. split; auto.
  - intros g. split; [discriminate|intros []].
Qed.
Lemma clients_spec h v : lives h v -> forall l, since h l -> agree (st_clients (sv_store v)) l.
Proof.
  induction 1 as [|h v n p H IH|h v o i s u H IH|h v i g H IH|h v H IH|h v H IH|h n s o a s' H IH HS]; intros l HL;
    try (apply since_snoc in HL; destruct HL as [[X ->]|(l' & -> & HN & HL)]; [try discriminate X|]).
  - destruct HL as [_ [<-|(h0 & E)]]; [|destruct h0; discriminate E]. intros id o s u later (l1 & E & _). destruct l1; discriminate E.
  - apply agree_other; [discriminate|discriminate|exact (IH l' HL)].
  - intros id. cbn [create_client set_clients sv_store st_clients]. rewrite aget_aput. destruct (id =s? i) eqn:E.
    + apply seqb_eq in E. subst i. exists o, s, u, []. split; [apply client_created_snoc; auto|apply new_client_behaves].
    + apply seqb_neq in E. specialize (IH l' HL id). destruct (sget id (st_clients (sv_store v))) as [c|].
      * destruct IH as (o' & s' & u' & later & HC & HB). exists o', s', u', (later ++ [NewClient o i s u])%list. split.
        { apply client_created_snoc. right. exists later. split; [reflexivity|]. split; [congruence|exact HC]. }
        destruct HB. constructor; auto. intros g. rewrite bh_grant, in_app_iff. split; [auto|]. intros [X|[X|[]]]; [exact X|discriminate X].
      * intros o' s' u' later X. apply client_created_snoc in X. destruct X as [[X _]|(later' & _ & _ & X)]; [congruence|exact (IH _ _ _ _ X)].
  - assert (HA : forall id, match sget id (st_clients (sv_store v)) with
      | Some c => exists o s u later, client_created (l' ++ [Allow i g]) id o s u later /\ behaves (if id =s? i then allow_grant g c else c) id o s u later
      | None => forall o s u later, ~ client_created (l' ++ [Allow i g]) id o s u later end).
    { intros id. specialize (IH l' HL id). destruct (sget id (st_clients (sv_store v))) as [c|].
      - destruct IH as (o' & s' & u' & later & HC & HB). exists o', s', u', (later ++ [Allow i g])%list. split.
        { apply client_created_snoc. right. exists later. split; [reflexivity|]. split; [discriminate|exact HC]. }
        destruct HB. destruct (id =s? i) eqn:E.
        + apply seqb_eq in E. subst i. constructor; auto. intros g'. cbn [allow_grant c_can_grant]. rewrite in_app_iff. cbn [In].
          destruct (g' =s? g) eqn:E; [apply seqb_eq in E; subst; split; auto|]. apply seqb_neq in E. rewrite bh_grant. split; [auto|].
          intros [X|[X|[]]]; [exact X|injection X as X; congruence].
        + apply seqb_neq in E. constructor; auto. intros g'. rewrite bh_grant, in_app_iff. cbn [In]. split; [auto|]. intros [X|[X|[]]]; [exact X|injection X as X; congruence].
      - intros o' s' u' later X. apply client_created_snoc in X. destruct X as [[X _]|(later' & _ & _ & X)]; [congruence|exact (IH _ _ _ _ X)]. }
    intros id. specialize (HA id). unfold allow. destruct (sget i (st_clients (sv_store v))) as [c|] eqn:EI.
    + cbn [set_clients sv_store st_clients]. rewrite aget_aput. destruct (id =s? i) eqn:E; [|exact HA]. apply seqb_eq in E. subst i. rewrite EI in HA. exact HA.
    + destruct (id =s? i) eqn:E; [|exact HA]. apply seqb_eq in E. subst i. rewrite EI in *. exact HA.
  - apply agree_other; [discriminate|discriminate|exact (IH l' HL)].
  - intros id o s u later (l1 & E & _). destruct l1; discriminate E.
  - congruence.
  - apply agree_other; [discriminate|discriminate|]. destruct (users_kept _ _ _ _ _ HS) as [_ E]. cbn [sv_store] in *. rewrite E. exact (IH l' HL).
Qed.
