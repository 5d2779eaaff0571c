(** Lemmas: what the bundled store holds is what the history left. *)
From Coq Require Import Lia.
From Verif Require Import StrFacts Core Utils World Spec TokenSpec TokenEndpoint TestStore TestServer ServerSpec ServerFacts.

Lemma standing_nil {A} g e (x : A) : ~ standing g e [] x.
Proof. intros (l1 & a & l2 & E & _). destruct l1; discriminate E. Qed.
Lemma standing_snoc {A} g e h a (x : A) : standing g e (h ++ [a]) x <-> g a x \/ (~ e a /\ standing g e h x).
Proof.
  split.
  - intros (l1 & b & l2 & E & HG & HN). apply snoc_inv in E. destruct E as [(-> & -> & ->)|(l' & -> & ->)]; [auto|]. right.
    split; [apply HN, in_or_app; right; left; reflexivity|]. exists l1, b, l'. split; [reflexivity|]. split; [exact HG|].
    intros c HI. apply HN, in_or_app. auto.
  - intros [HG|(HE & l1 & b & l2 & -> & HG & HN)].
    + exists h, a, []. split; [reflexivity|]. split; [exact HG|]. intros c [].
    + exists l1, b, (l2 ++ [a])%list. rewrite <- app_assoc. split; [reflexivity|]. split; [exact HG|].
      intros c HI. apply in_app_or in HI. destruct HI as [HI|[<-|[]]]; auto.
Qed.
Lemma standing_other {A} g e h a (x : A) : ~ g a x -> ~ e a -> standing g e (h ++ [a]) x <-> standing g e h x.
Proof. intros H1 H2. rewrite standing_snoc. tauto. Qed.
Lemma standing_end {A} (g : act -> A -> Prop) (e : act -> Prop) h a : (forall x, ~ g a x) -> e a -> forall x, ~ standing g e (h ++ [a]) x.
Proof. intros H1 H2 x. rewrite standing_snoc. intros [H|[H _]]; [exact (H1 _ H)|exact (H H2)]. Qed.

(** ** Association lists *)
Section Maps.
  Context {K V : Type} (eqb : K -> K -> bool) (E : forall x y, eqb x y = true <-> x = y).
  Lemma get_del k k' (m : list (K * V)) : aget eqb k (adel eqb k' m) = if eqb k k' then None else aget eqb k m.
  Proof.
    unfold adel. induction m as [|[k2 v] m IH]; [destruct (eqb k k'); reflexivity|]. cbn [filter fst].
    destruct (eqb k' k2) eqn:E2; cbn [negb aget].
    - rewrite IH. apply E in E2. subst k2. destruct (eqb k k') eqn:E3; [reflexivity|]. rewrite ?E3. reflexivity.
    - destruct (eqb k k2) eqn:E3; [|exact IH]. apply E in E3. subst k2. destruct (eqb k k') eqn:E3; [|reflexivity].
      apply E in E3. subst k'. assert (eqb k k = true) by (apply E; reflexivity). congruence.
  Qed.
  Lemma get_put k k' (v : V) m : aget eqb k (aput eqb k' v m) = if eqb k k' then Some v else aget eqb k m.
  Proof. unfold aput. cbn [aget]. destruct (eqb k k') eqn:E2; [reflexivity|]. rewrite get_del, E2. reflexivity. Qed.
  Lemma get_in k (v : V) m : aget eqb k m = Some v -> In (k, v) m.
  Proof.
    induction m as [|[k2 v2] m IH]; [discriminate|]. cbn [aget]. destruct (eqb k k2) eqn:E2; [|right; auto].
    intros X. injection X as ->. apply E in E2. subst. left. reflexivity.
  Qed.
  Lemma in_put k k' (v v' : V) m : In (k, v) (aput eqb k' v' m) <-> (k = k' /\ v = v') \/ (k <> k' /\ In (k, v) m).
  Proof.
    unfold aput, adel. cbn [In]. rewrite filter_In. cbn [fst]. split.
    - intros [X|[H X]]; [injection X as -> ->; auto|]. right. split; [|exact H]. intros ->. assert (eqb k' k' = true) by (apply E; reflexivity).
      rewrite H0 in X. discriminate X.
    - intros [[-> ->]|[H X]]; [auto|]. right. split; [exact X|]. destruct (eqb k' k) eqn:E2; [|reflexivity]. apply E in E2. congruence.
  Qed.
  Lemma in_del k k' (v : V) m : In (k, v) (adel eqb k' m) <-> k <> k' /\ In (k, v) m.
  Proof.
    unfold adel. rewrite filter_In. cbn [fst]. split.
    - intros [H X]. split; [|exact H]. intros ->. assert (eqb k' k' = true) by (apply E; reflexivity). rewrite H0 in X. discriminate X.
    - intros [H X]. split; [exact X|]. destruct (eqb k' k) eqn:E2; [|reflexivity]. apply E in E2. congruence.
  Qed.
  (* Every key once. *)
  Lemma nodup_del k (m : list (K * V)) : NoDup (map fst m) -> NoDup (map fst (adel eqb k m)).
  Proof.
    unfold adel. induction m as [|[k2 v2] m IH]; [auto|]. cbn [map fst filter]. intros H. inversion H as [|? ? H1 H2]; subst.
    destruct (negb (eqb k k2)); [|auto]. cbn [map fst]. constructor; [|auto]. intros HI. apply H1.
    apply in_map_iff in HI. destruct HI as (p & <- & HI). apply filter_In in HI. apply in_map. apply HI.
  Qed.
  Lemma nodup_put k (v : V) m : NoDup (map fst m) -> NoDup (map fst (aput eqb k v m)).
  Proof.
    intros H. unfold aput. cbn [map fst]. constructor; [|apply nodup_del; exact H].
    intros HI. apply in_map_iff in HI. destruct HI as ([k2 v2] & X & HI). cbn [fst] in X. subst k2. apply in_del in HI. destruct HI as [HI _]. congruence.
  Qed.
  Lemma in_get k (v : V) m : NoDup (map fst m) -> In (k, v) m -> aget eqb k m = Some v.
  Proof.
    induction m as [|[k2 v2] m IH]; [intros _ []|]. cbn [map fst aget In]. intros H HI. inversion H as [|? ? H1 H2]; subst.
    destruct (eqb k k2) eqn:E2.
    - apply E in E2. subst k2. destruct HI as [X|HI]; [injection X as ->; reflexivity|]. destruct H1. apply in_map_iff. exists (k, v). auto.
    - destruct HI as [X|HI]; [|auto]. injection X as -> ->. assert (eqb k k = true) by (apply E; reflexivity). congruence.
  Qed.
End Maps.

(** ** Codes *)
Definition codes_agree (m : list (string * authsession)) (h : list act) : Prop := forall code,
  match sget code m with
  | Some y => exists id x, standing (gives_code code) (ends_code code) h (id, x) /\ session_of id x y
  | None => forall p, ~ standing (gives_code code) (ends_code code) h p
  end.
Lemma codes_other m h a : (forall code p, ~ gives_code code a p) -> (forall code, ~ ends_code code a) -> codes_agree m h -> codes_agree m (h ++ [a]).
Proof.
  intros H1 H2 H code. specialize (H code). destruct (sget code m) as [y|].
  - destruct H as (id & x & HS & HO). exists id, x. split; [|exact HO]. apply standing_other; auto.
  - intros p X. apply standing_other in X; auto. exact (H _ X).
Qed.
Ltac not_about := let X := fresh in intros; intros X; inversion X.

Lemma codes_spec h v : lives h v -> codes_agree (st_sessions (sv_store v)) h.
Proof.
  induction 1 as [|h v n p H IH|h v o i s u H IH|h v i g H IH|h v H IH|h v H IH|h n s o a s' H IH HS].
  - intros code p. apply standing_nil.
  - apply codes_other; [not_about|not_about|exact IH].
  - apply codes_other; [not_about|not_about|exact IH].
  - apply codes_other; [not_about|not_about|]. unfold allow. destruct (sget i (st_clients (sv_store v))); exact IH.
  - intros code. cbn. apply standing_end; [not_about|constructor].
  - intros code. cbn. apply standing_end; [not_about|constructor].
  - cbn [sv_store] in *. destruct HS; try (apply codes_other; [not_about|not_about|exact IH]).
    + intros code. cbn [set_sessions st_sessions]. unfold sget. rewrite (get_put _ seqb_eq). specialize (IH code). unfold sget in IH. destruct (seqb code (s_code x)) eqn:E.
      * apply seqb_eq in E. subst code. exists (ai_id i), x. split; [apply standing_snoc; left; constructor; reflexivity|]. constructor; reflexivity.
      * apply seqb_neq in E. destruct (aget seqb code (st_sessions s)) as [y|].
        { destruct IH as (id & x' & HS & HO). exists id, x'. split; [|exact HO]. apply standing_snoc. right. split; [|exact HS]. intros X. inversion X; subst; congruence. }
        intros p X. apply standing_snoc in X. destruct X as [X|[_ X]]; [inversion X; subst; congruence|exact (IH _ X)].
    + intros code. cbn [set_sessions st_sessions]. unfold sget. rewrite (get_del _ seqb_eq). specialize (IH code). unfold sget in IH. destruct (seqb code (as_code x)) eqn:E.
      * apply seqb_eq in E. subst code. apply standing_end; [not_about|constructor; reflexivity].
      * apply seqb_neq in E. destruct (aget seqb code (st_sessions s)) as [y|].
        { destruct IH as (id & x' & HS & HO). exists id, x'. split; [|exact HO]. apply standing_snoc. right. split; [|exact HS]. intros X. inversion X; subst; congruence. }
        intros p X. apply standing_snoc in X. destruct X as [X|[_ X]]; [inversion X|exact (IH _ X)].
    + discriminate.
Qed.

(** ** Authorizations *)
Definition act_info (a : act) : option authinfo :=
  match a with
  | Step (Ev o a) => (match o as o0 return ans o0 -> option authinfo with OCreateInfo _ _ _ => fun a => fst a | _ => fun _ => None end) a
  | _ => None
  end.
Lemma gives_info_inv id a i : gives_info id a i -> act_info a = Some i /\ ai_id i = id.
Proof. destruct 1; auto. Qed.
Lemma ends_info_inv id a : ends_info id a -> forall i, act_info a = Some i -> ai_id i = id.
Proof. destruct 1; cbn; congruence. Qed.
Definition act_token (a : act) : option oauthtoken :=
  match a with
  | Step (Ev o a) => (match o as o0 return ans o0 -> option oauthtoken with OCreateToken _ _ => fun a => fst a | ORefresh _ _ => fun a => fst a | _ => fun _ => None end) a
  | _ => None
  end.
Definition act_old (a : act) : option oauthtoken := match a with Step (Ev (ORefresh _ old) _) => Some old | _ => None end.
Lemma gives_token_inv k a t : gives_token k a t -> act_token a = Some t /\ ot_access t = k.
Proof. destruct 1; auto. Qed.
Lemma ends_token_inv k a : ends_token k a -> (exists t, act_token a = Some t /\ ot_access t = k) \/ (exists t, act_old a = Some t /\ ot_access t = k) \/ a = ClearAuth \/ a = ClearAll.
Proof. destruct 1; cbn; eauto. Qed.
Record infos_agree (m : list (Z * authinfo)) (h : list act) : Prop := {
  ia_ids : forall k i, In (k, i) m -> ai_id i = k;
  ia_found : forall id i, zget id m = Some i <-> standing (gives_info id) (ends_info id) h i }.
Lemma infos_other m h a : (forall id i, ~ gives_info id a i) -> (forall id, ~ ends_info id a) -> infos_agree m h -> infos_agree m (h ++ [a]).
Proof. intros H1 H2 [HI H]. split; [exact HI|]. intros id i. rewrite standing_other; auto. Qed.
Lemma infos_cleared h a : (forall id i, ~ gives_info id a i) -> (forall id, ends_info id a) -> infos_agree [] (h ++ [a]).
Proof.
  intros H1 H2. split; [intros k i []|]. intros id i. split; [discriminate|]. intros X. exfalso. revert X. apply standing_end; auto.
Qed.
Lemma infos_put m h id i u c sc : ai_id i = id -> infos_agree m h -> infos_agree (aput Z.eqb id i m) (h ++ [Step (Ev (OCreateInfo u c sc) (Some i, None))]).
Proof.
  intros E [HI H]. split.
  - intros k j HIn. apply (in_put _ Z.eqb_eq) in HIn. destruct HIn as [[-> ->]|[_ HIn]]; eauto.
  - intros k j. unfold zget. rewrite (get_put _ Z.eqb_eq), standing_snoc. fold (@zget authinfo). destruct (k =? id)%Z eqn:EK.
    + apply Z.eqb_eq in EK. subst k. split.
      * intros X. injection X as <-. left. constructor. exact E.
      * intros [X|[X _]]; [apply gives_info_inv in X; exact (proj1 X)|]. exfalso. apply X. constructor. exact E.
    + apply Z.eqb_neq in EK. change (aget Z.eqb k m) with (zget k m). rewrite H. split.
      * intros X. right. split; [|exact X]. intros Y. pose proof (ends_info_inv _ _ Y i eq_refl). congruence.
      * intros [X|[_ X]]; [|exact X]. apply gives_info_inv in X. destruct X as [X Y]. injection X as <-. congruence.
Qed.
Lemma infos_spec h v : lives h v -> infos_agree (st_infos (sv_store v)) h.
Proof.
  induction 1 as [|h v n p H IH|h v o i s u H IH|h v i g H IH|h v H IH|h v H IH|h n s o a s' H IH HS].
  - split; [intros k i []|]. intros id i. split; [discriminate|]. intros X. destruct (standing_nil _ _ _ X).
  - apply infos_other; [not_about|not_about|exact IH].
  - apply infos_other; [not_about|not_about|exact IH].
  - apply infos_other; [not_about|not_about|]. unfold allow. destruct (sget i (st_clients (sv_store v))); exact IH.
  - apply infos_cleared; [not_about|constructor].
  - apply infos_cleared; [not_about|constructor].
  - cbn [sv_store] in *. destruct HS; try (apply infos_other; [not_about|not_about|exact IH]).
    + apply infos_put; [|exact IH]. cbn. exact (ia_ids _ _ IH _ _ H0).
    + apply (infos_put (st_infos s)); [reflexivity|exact IH].
Qed.

(** ** Tokens *)
Record tokens_agree (m : list (string * oauthtoken)) (h : list act) : Prop := {
  ta_keys : forall k t, In (k, t) m -> ot_access t = k;
  ta_once : NoDup (map fst m);
  ta_found : forall k t, sget k m = Some t <-> standing (gives_token k) (ends_token k) h t }.
Lemma tokens_other m h a : (forall k t, ~ gives_token k a t) -> (forall k, ~ ends_token k a) -> tokens_agree m h -> tokens_agree m (h ++ [a]).
Proof. intros H1 H2 [HI HN H]. split; [exact HI|exact HN|]. intros id i. rewrite standing_other; auto. Qed.
Lemma tokens_cleared h a : (forall k t, ~ gives_token k a t) -> (forall k, ends_token k a) -> tokens_agree [] (h ++ [a]).
Proof.
  intros H1 H2. split; [intros k i []|constructor|]. intros id i. split; [discriminate|]. intros X. exfalso. revert X. apply standing_end; auto.
Qed.
Lemma tokens_spec h v : lives h v -> tokens_agree (st_tokens (sv_store v)) h.
Proof.
  induction 1 as [|h v n p H IH|h v o i s u H IH|h v i g H IH|h v H IH|h v H IH|h n s o a s' H IH HS].
  - split; [intros k i []|constructor|]. intros id i. split; [discriminate|]. intros X. destruct (standing_nil _ _ _ X).
  - apply tokens_other; [not_about|not_about|exact IH].
  - apply tokens_other; [not_about|not_about|exact IH].
  - apply tokens_other; [not_about|not_about|]. unfold allow. destruct (sget i (st_clients (sv_store v))); exact IH.
  - apply tokens_cleared; [not_about|constructor].
  - apply tokens_cleared; [not_about|constructor].
  - cbn [sv_store] in *. destruct HS; try (apply tokens_other; [not_about|not_about|exact IH]).
    + destruct IH as [HI HN HF]. cbn [set_tokens st_tokens]. set (x := created_token i t1 t2) in *. split.
      * intros k t HIn. apply (in_put _ seqb_eq) in HIn. destruct HIn as [[-> ->]|[_ HIn]]; eauto.
      * apply (nodup_put _ seqb_eq). exact HN.
      * intros k t. unfold sget. rewrite (get_put _ seqb_eq), standing_snoc. destruct (seqb k (ot_access x)) eqn:EK.
        { apply seqb_eq in EK. subst k. split; [intros X; injection X as <-; left; constructor; reflexivity|].
          intros [X|[X _]]; [apply gives_token_inv in X; exact (proj1 X)|]. exfalso. apply X. constructor. reflexivity. }
        apply seqb_neq in EK. change (aget seqb k (st_tokens s)) with (sget k (st_tokens s)). rewrite HF. split.
        { intros X. right. split; [|exact X]. intros Y. apply ends_token_inv in Y. destruct Y as [(w & Y1 & Y2)|[(w & Y1 & Y2)|[Y|Y]]]; try discriminate Y; cbn in Y1; try discriminate Y1; injection Y1 as <-; congruence. }
        { intros [X|[_ X]]; [|exact X]. apply gives_token_inv in X. destruct X as [X Y]. injection X as <-. congruence. }
    + destruct IH as [HI HN HF]. cbn [set_tokens st_tokens]. fold new. split.
      * intros k y HIn. apply (in_put _ seqb_eq) in HIn. destruct HIn as [[-> ->]|[_ HIn]]; [reflexivity|].
        apply (in_del _ seqb_eq) in HIn. apply HI. apply HIn.
      * apply (nodup_put _ seqb_eq), nodup_del. exact HN.
      * intros k y. unfold sget. rewrite (get_put _ seqb_eq), standing_snoc, (get_del _ seqb_eq). destruct (seqb k (ot_access new)) eqn:EK.
        { apply seqb_eq in EK. subst k. split; [intros X; injection X as <-; left; constructor; reflexivity|].
          intros [X|[X _]]; [apply gives_token_inv in X; exact (proj1 X)|]. exfalso. apply X. constructor. reflexivity. }
        apply seqb_neq in EK. destruct (seqb k (ot_access old)) eqn:EO.
        { apply seqb_eq in EO. subst k. split; [discriminate|]. intros [X|[X _]]; [|exfalso; apply X, et_replaced; reflexivity]. apply gives_token_inv in X. destruct X as [X Y]. injection X as <-. congruence. }
        apply seqb_neq in EO. change (aget seqb k (st_tokens s)) with (sget k (st_tokens s)). rewrite HF. split.
        { intros X. right. split; [|exact X]. intros Y. apply ends_token_inv in Y. destruct Y as [(w & Y1 & Y2)|[(w & Y1 & Y2)|[Y|Y]]]; try discriminate Y; cbn in Y1; try discriminate Y1; injection Y1 as <-; congruence. }
        { intros [X|[_ X]]; [|exact X]. apply gives_token_inv in X. destruct X as [X Y]. injection X as <-. congruence. }
Qed.

(* What stands is one. *)
Lemma standing_fun {A} (g : act -> A -> Prop) (e : act -> Prop) : (forall a x, g a x -> e a) -> (forall a x y, g a x -> g a y -> x = y) ->
  forall h x y, standing g e h x -> standing g e h y -> x = y.
Proof.
  intros HG HF h x y. induction h as [|a h IH] using rev_ind; [intros H; destruct (standing_nil _ _ _ H)|].
  rewrite !standing_snoc. intros [H1|[N1 H1]] [H2|[N2 H2]]; eauto; exfalso; eauto.
Qed.
Definition act_code (a : act) : option (Z * asession) := match a with Step (Ev (OCreateSession (Some i) x) _) => Some (ai_id i, x) | _ => None end.
Lemma standing_code_fun code h p q : standing (gives_code code) (ends_code code) h p -> standing (gives_code code) (ends_code code) h q -> p = q.
Proof.
  apply standing_fun.
  - intros a x H. destruct H. constructor. assumption.
  - intros a x y H1 H2. assert (A : forall p, gives_code code a p -> act_code a = Some p) by (intros w H; destruct H; reflexivity).
    apply A in H1, H2. congruence.
Qed.

(* What was ended stands only if it was given again. *)
Lemma standing_after {A} (g : act -> A -> Prop) (e : act -> Prop) h1 a h2 x : e a -> ~ g a x -> standing g e (h1 ++ a :: h2) x -> exists b, In b h2 /\ g b x.
Proof.
  intros HE HG. induction h2 as [|b h2 IH] using rev_ind.
  - intros H. apply standing_snoc in H. destruct H as [H|[H _]]; contradiction.
  - change (h1 ++ a :: h2 ++ [b])%list with (h1 ++ (a :: h2) ++ [b])%list. rewrite app_assoc, standing_snoc. intros [H|[_ H]].
    + exists b. split; [apply in_or_app; right; left; reflexivity|exact H].
    + destruct (IH H) as (c & HI & HC). exists c. split; [apply in_or_app; auto|exact HC].
Qed.
