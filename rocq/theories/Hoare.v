(** * Reasoning about programs: weakest preconditions over histories.

    Nothing here models code of /repo; these are the proof rules.  [h] is the
    history of events so far.  [G h o] must hold whenever operation [o] is about
    to be performed after history [h]; [Q h r] must hold of the final history
    and outcome. *)
From Verif Require Import Core.

Definition guard := list event -> op -> Prop.
Definition post (A : Type) := list event -> outcome A -> Prop.

Fixpoint wp {A} (G : guard) (Q : post A) (h : list event) (p : prog A) : Prop :=
  match p with
  | Ret a => Q h (Done a)
  | Panic => Q h Panicked
  | Vis o k => G h o /\ forall x, wp G Q (h ++ [Ev o x])%list (k x)
  end.

(** Inversion of [exec] without dependent elimination. *)
Lemma exec_inv {A} (p : prog A) tr r :
  exec p tr r ->
  match p with
  | Ret a => tr = [] /\ r = Done a
  | Panic => tr = [] /\ r = Panicked
  | Vis o k => exists x tr', tr = Ev o x :: tr' /\ exec (k x) tr' r
  end.
Proof. destruct 1; eauto. Qed.

Lemma steps_inv {A} (p : prog A) tr p' :
  steps p tr p' ->
  (tr = [] /\ p' = p) \/
  match p with
  | Vis o k => exists x tr', tr = Ev o x :: tr' /\ steps (k x) tr' p'
  | _ => False
  end.
Proof. destruct 1; eauto 6. Qed.

Lemma wp_sound {A} (G : guard) (Q : post A) p : forall h tr r,
  wp G Q h p -> exec p tr r ->
  Q (h ++ tr)%list r /\
  (forall t1 e t2, tr = (t1 ++ e :: t2)%list -> G (h ++ t1)%list (ev_op e)).
Proof.
  intros h tr r Hw He. revert h Hw.
  induction He as [a| |o k x tr r He IH]; intros h Hw; simpl in Hw.
  - rewrite app_nil_r. split; auto. intros [|? ?] e0 t2 H; discriminate.
  - rewrite app_nil_r. split; auto. intros [|? ?] e0 t2 H; discriminate.
  - destruct Hw as [HG Hk]. specialize (Hk x). destruct (IH _ Hk) as [HQ HGs].
    rewrite <- app_assoc in HQ. simpl in HQ. split; auto.
    intros [|e0 t1] e t2 H; simpl in H; injection H as H0 H1; subst.
    + simpl. rewrite app_nil_r. exact HG.
    + specialize (HGs t1 e t2 eq_refl). rewrite <- app_assoc in HGs. exact HGs.
Qed.

Lemma wp_complete {A} (G : guard) (Q : post A) p : forall h,
  (forall tr r, exec p tr r -> Q (h ++ tr)%list r) ->
  (forall tr p', steps p tr p' -> match p' with Vis o _ => G (h ++ tr)%list o | _ => True end) ->
  wp G Q h p.
Proof.
  induction p as [a| |o k IH]; intros h HQ HG; simpl.
  - specialize (HQ [] _ (exec_ret a)). rewrite app_nil_r in HQ. exact HQ.
  - specialize (HQ [] _ exec_panic). rewrite app_nil_r in HQ. exact HQ.
  - split.
    + specialize (HG [] _ (steps_nil _)). simpl in HG. rewrite app_nil_r in HG. exact HG.
    + intros x. apply IH.
      * intros tr r He. specialize (HQ _ _ (exec_vis o k x tr r He)).
        rewrite <- app_assoc. exact HQ.
      * intros tr p' Hs. specialize (HG _ _ (steps_vis o k x tr p' Hs)).
        destruct p'; auto. rewrite <- app_assoc. exact HG.
Qed.

Lemma wp_mono {A} (G G' : guard) (Q Q' : post A) p : forall h,
  (forall h o, G h o -> G' h o) -> (forall h r, Q h r -> Q' h r) ->
  wp G Q h p -> wp G' Q' h p.
Proof.
  induction p as [a| |o k IH]; intros h HG HQ Hw; simpl in *; auto.
  destruct Hw as [H1 H2]. split; auto.
Qed.

Lemma wp_post {A} (G : guard) (Q Q' : post A) p h :
  (forall h r, Q h r -> Q' h r) -> wp G Q h p -> wp G Q' h p.
Proof. intros HQ. apply wp_mono; auto. Qed.

Lemma wp_bind {A B} (G : guard) (Q : post B) (p : prog A) (f : A -> prog B) : forall h,
  wp G (fun h r => match r with Done a => wp G Q h (f a) | Panicked => Q h Panicked end) h p
  <-> wp G Q h (bind p f).
Proof.
  induction p as [a| |o k IH]; intros h; simpl; try tauto.
  split; intros [H1 H2]; split; auto; intros x; apply IH; apply H2.
Qed.

Lemma wp_and {A} (G1 G2 : guard) (Q1 Q2 : post A) p : forall h,
  wp G1 Q1 h p -> wp G2 Q2 h p ->
  wp (fun h o => G1 h o /\ G2 h o) (fun h r => Q1 h r /\ Q2 h r) h p.
Proof.
  induction p as [a| |o k IH]; intros h H1 H2; simpl in *; auto.
  destruct H1, H2. split; auto.
Qed.

(** If [G] and [Q] hold whatever comes after, the program does not matter. *)
Lemma wp_trivial {A} (G : guard) (Q : post A) p : forall h,
  (forall h' o, G (h ++ h')%list o) -> (forall h' r, Q (h ++ h')%list r) -> wp G Q h p.
Proof.
  induction p as [a| |o k IH]; intros h HG HQ; simpl.
  - specialize (HQ [] (Done a)). rewrite app_nil_r in HQ; auto.
  - specialize (HQ [] Panicked). rewrite app_nil_r in HQ; auto.
  - split.
    + specialize (HG [] o). rewrite app_nil_r in HG; auto.
    + intros x. apply IH; intros; rewrite <- app_assoc; auto.
Qed.

(** Histories only grow. *)
Lemma wp_extends {A} (G : guard) (Q : post A) p : forall h,
  wp G Q h p ->
  wp G (fun h' r => (exists t, h' = h ++ t)%list /\ Q h' r) h p.
Proof.
  induction p as [a| |o k IH]; intros h Hw; simpl in *.
  - split; auto. exists []. rewrite app_nil_r; auto.
  - split; auto. exists []. rewrite app_nil_r; auto.
  - destruct Hw as [H1 H2]. split; auto. intros x.
    specialize (IH x _ (H2 x)). revert IH. apply wp_post.
    intros h' r [[t ->] HQ]. split; auto. exists (Ev o x :: t). rewrite <- app_assoc; auto.
Qed.

(** ** Executions and prefixes *)

Lemma exec_bind {A B} (p : prog A) (f : A -> prog B) : forall tr r,
  exec (bind p f) tr r <->
  ((exists t1 t2 a, exec p t1 (Done a) /\ exec (f a) t2 r /\ tr = t1 ++ t2)%list
   \/ (exec p tr Panicked /\ r = Panicked)).
Proof.
  induction p as [a| |o k IH]; intros tr r; simpl; split.
  - intros H. left. exists [], tr, a. repeat split; auto. constructor.
  - intros [(t1 & t2 & a' & H1 & H2 & ->)|[H1 ->]]; apply exec_inv in H1; destruct H1 as [H3 H4].
    + subst. injection H4 as ->. exact H2.
    + discriminate.
  - intros H. right. apply exec_inv in H. destruct H as [-> ->]. split; constructor.
  - intros [(t1 & t2 & a' & H1 & H2 & ->)|[H1 ->]]; apply exec_inv in H1; destruct H1 as [H3 H4].
    + discriminate.
    + subst. constructor.
  - intros H. apply exec_inv in H. destruct H as (x & tr' & -> & Hk).
    apply IH in Hk. destruct Hk as [(t1 & t2 & a' & H1 & H2 & ->)|[H1 ->]].
    + left. exists (Ev o x :: t1), t2, a'. repeat split; auto. constructor; auto.
    + right. split; auto. constructor; auto.
  - intros [(t1 & t2 & a' & H1 & H2 & ->)|[H1 ->]];
      apply exec_inv in H1; destruct H1 as (x & tr' & -> & Hk).
    + simpl. constructor. apply IH. left. exists tr', t2, a'. auto.
    + constructor. apply IH. right. auto.
Qed.

(** Every operation has at least one possible answer, so every prefix extends to
    a complete execution. *)
Definition any_ans (o : op) : ans o :=
  match o with
  | OIssuer => ""
  | OFindClient _ => (None, None)
  | OFindSession _ => (None, None)
  | OFindActiveInfo _ => (None, None)
  | OFindInfo _ _ => (None, None)
  | OCreateInfo _ _ _ => (None, None)
  | OFindByAccess _ => (None, None)
  | OFindByRefresh _ => (None, None)
  | OCreateToken _ _ => (None, None)
  | ORefresh _ _ => (None, None)
  | OFindUser _ _ => (0%Z, None)
  | OFindUserBySub _ => (0%Z, None)
  | OCreateSession _ _ => None
  | ODisable _ => None
  | ORecord _ _ _ _ => None
  | OErrorScreen _ => tt
  | OLoginScreen _ => None
  | OConsentScreen _ _ => None
  | OChooseLocale _ => None
  | OConfirmLogin => None
  | OFromLogin => None
  | OMatchSubject _ => None
  | OAuthTime => None
  | OLoginUser => None
  | OCreateCode => None
  | OContinue => None
  | ONow => 0%Z
  | OJwtNow => 0%Z
  | OLog _ _ _ => tt
  | OSetHeader _ _ => tt
  | OStatus _ => tt
  | OBody _ => tt
  | ORedirect _ => tt
  | OMapOrder m => exist _ m (Permutation_refl m)
  end.

Lemma exec_exists {A} (p : prog A) : exists tr r, exec p tr r.
Proof.
  induction p as [a| |o k IH].
  - exists [], (Done a). constructor.
  - exists [], Panicked. constructor.
  - destruct (IH (any_ans o)) as (tr & r & H). exists (Ev o (any_ans o) :: tr), r. constructor; auto.
Qed.

Lemma steps_exec {A} (p : prog A) tr p' :
  steps p tr p' -> forall tr' r, exec p' tr' r -> exec p (tr ++ tr')%list r.
Proof. induction 1; intros; simpl; auto. constructor. auto. Qed.

Lemma steps_prefix {A} (p : prog A) tr p' :
  steps p tr p' -> exists tr' r, exec p (tr ++ tr')%list r.
Proof.
  intros H. destruct (exec_exists p') as (tr' & r & He). exists tr', r.
  eapply steps_exec; eauto.
Qed.

Lemma run_exec {S A} (w : world S) (p : prog A) : forall s s' tr r,
  run w s p = (s', tr, r) -> exec p tr r.
Proof.
  induction p as [a| |o k IH]; intros s s' tr r H; simpl in H.
  - inversion H; subst. constructor.
  - inversion H; subst. constructor.
  - destruct (w s o) as [s1 x]. destruct (run w s1 (k x)) as [[s2 t] r2] eqn:E.
    inversion H; subst. constructor. eapply IH; eauto.
Qed.

(** ** The shapes used by the theorems *)

Lemma wp_exec {A} (G : guard) (Q : post A) p tr r :
  wp G Q [] p -> exec p tr r -> Q tr r.
Proof. intros H He. exact (proj1 (wp_sound G Q p [] tr r H He)). Qed.

Lemma wp_guard {A} (G : guard) (Q : post A) p tr r t1 e t2 :
  wp G Q [] p -> exec p tr r -> tr = (t1 ++ e :: t2)%list -> G t1 (ev_op e).
Proof. intros H He Heq. exact (proj2 (wp_sound G Q p [] tr r H He) t1 e t2 Heq). Qed.

Definition gtrue : guard := fun _ _ => True.
