(** * Counting operations: proof machinery (models nothing). *)
From Coq Require Import Lia.
From Verif Require Import WpTac Sha Utils OAuthError Assertion IdToken Grants TokenEndpoint AuthzResponse AuthzEndpoint
  ResourceProtector TokenSpec BoundSpec.

(** Every run of [p] performs at most [n] operations of kind [P]. *)
Fixpoint most {A} (P : op -> bool) (n : nat) (p : prog A) : Prop :=
  match p with
  | Ret _ | Panic => True
  | Vis o k =>
      if P o then match n with O => False | S m => forall x, most P m (k x) end
      else forall x, most P n (k x)
  end.


Lemma count_app P a b : times P (a ++ b) = (times P a + times P b)%nat.
Proof. unfold times. rewrite filter_app, app_length. reflexivity. Qed.
Lemma count_none P tr : times P tr = 0%nat -> forall e, In e tr -> P (ev_op e) = false.
Proof.
  intros H e He. destruct (P (ev_op e)) eqn:E; [|reflexivity]. exfalso.
  assert (HI : In e (filter (fun e => P (ev_op e)) tr)) by (apply filter_In; auto).
  unfold times in H. destruct (filter _ tr); [exact HI|discriminate H].
Qed.

Section Most.
  Variable P : op -> bool.
  Lemma most_hit {A} n o (k : ans o -> prog A) : P o = true -> (forall x, most P n (k x)) -> most P (S n) (Vis o k).
  Proof. intros H1 H2. simpl. rewrite H1. exact H2. Qed.
  Lemma most_miss {A} n o (k : ans o -> prog A) : P o = false -> (forall x, most P n (k x)) -> most P n (Vis o k).
  Proof. intros H1 H2. simpl. rewrite H1. exact H2. Qed.
  Lemma most_le {A} (p : prog A) : forall n m, (n <= m)%nat -> most P n p -> most P m p.
  Proof.
    induction p as [a| |o k IH]; intros n m H; simpl; auto. destruct (P o).
    - destruct n as [|n]; [intros []|]. destruct m as [|m]; [lia|]. intros HK x. apply (IH x n m); [lia|auto].
    - intros HK x. apply (IH x n m); auto.
  Qed.
  Lemma most_bind {A B} (p : prog A) (k : A -> prog B) : forall n m,
    most P n p -> (forall a, most P m (k a)) -> most P (n + m) (bind p k).
  Proof.
    induction p as [a| |o q IH]; intros n m H HK; cbn [bind].
    - apply (most_le _ m); [lia|auto].
    - exact I.
    - simpl in *. destruct (P o).
      + destruct n as [|n]; [destruct H|]. cbn. intros x. apply IH; auto.
      + intros x. apply IH; auto.
  Qed.
  Lemma most_exec {A} (p : prog A) : forall n tr r, most P n p -> exec p tr r -> (times P tr <= n)%nat.
  Proof.
    intros n tr r H He. revert n H. induction He as [a| |o k x tr r He IH]; intros n H; [apply Nat.le_0_l..|].
    unfold times in *. simpl in *. destruct (P o).
    - destruct n as [|n]; [destruct H|]. simpl. specialize (IH n (H x)). lia.
    - apply IH. apply H.
  Qed.
End Most.

(** The last stage, with whatever is left. *)
Ltac most_tail L := eapply most_le; [|apply L]; lia.

Ltac mstep :=
  lazymatch goal with
  | |- most _ _ (Ret _) => exact I
  | |- most _ _ Panic => exact I
  | |- most _ _ (Vis _ _) =>
      first [apply most_miss; [reflexivity|] | apply most_hit; [reflexivity|]];
      let x := fresh "x" in intros x; cbn beta
  | |- most _ _ ?p =>
      let q := head p in
      lazymatch q with
      | Ret _ => cbn [bind]
      | Panic => cbn [bind]
      | Vis _ _ => cbn [bind]
      | call _ => unfold call; cbn [bind]
      | logm _ _ _ => unfold logm, call; cbn [bind]
      | match ?x with _ => _ end => destruct x; cbn [negb fst snd]
      end
  end.
