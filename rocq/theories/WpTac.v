(** * Symbolic execution of programs (proof automation; models nothing). *)
From Coq Require Import Lia.
From Verif Require Export Core Spec StrFacts Hoare.

Lemma wp_vis {A} (G : guard) (Q : post A) h o k :
  G h o -> (forall x, wp G Q (h ++ [Ev o x])%list (k x)) -> wp G Q h (Vis o k).
Proof. intros H1 H2. split; auto. Qed.
Lemma wp_ret {A} (G : guard) (Q : post A) h a : Q h (Done a) -> wp G Q h (Ret a).
Proof. auto. Qed.
Lemma wp_panic {A} (G : guard) (Q : post A) h : Q h Panicked -> wp G Q h Panic.
Proof. auto. Qed.

(** The program that runs first. *)
Ltac head p :=
  lazymatch p with
  | bind ?q _ => head q
  | _ => p
  end.

(** One step: reduce, split a performed operation, or branch. *)
Ltac wp_step :=
  lazymatch goal with
  | |- wp _ _ _ (Ret _) => apply wp_ret
  | |- wp _ _ _ Panic => apply wp_panic
  | |- wp _ _ _ (Vis _ _) => apply wp_vis; [try exact I | intro; cbn beta]
  | |- wp _ _ _ ?p =>
      let q := head p in
      lazymatch q with
      | Ret _ => cbn [bind]
      | Panic => cbn [bind]
      | Vis _ _ => cbn [bind]
      | call _ => unfold call; cbn [bind]
      | logm _ _ _ => unfold logm, call; cbn [bind]
      | match ?x with _ => _ end => destruct x eqn:?; cbn [negb fst snd]
      end
  end.

Ltac wp_go := repeat (wp_step; sdestruct); subst.

(** Simplify a history built up as [(([] ++ [e1]) ++ [e2]) ...]. *)
Ltac hist := repeat rewrite <- app_assoc; cbn [app].

(** Prove a goal about the trace and outcome of [H : exec p tr res] by [wp]. *)
Ltac by_wp H :=
  lazymatch type of H with
  | exec _ ?tr ?res =>
      pattern tr, res;
      lazymatch goal with |- ?Q _ _ => refine (wp_exec gtrue Q _ _ _ _ H) end;
      clear H; cbv beta
  end.
