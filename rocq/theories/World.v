(** * Stateful worlds, histories and interleavings. *)
From Verif Require Import Core.

(** A world: which answers an operation may get in a state, and the next state.
    Each operation is atomic. *)
Definition rworld (S : Type) := S -> forall o, ans o -> S -> Prop.

(** One request run to completion, alone. *)
Inductive rrun {S A} (W : rworld S) : S -> prog A -> list event -> outcome A -> S -> Prop :=
| rrun_ret s a : rrun W s (Ret a) [] (Done a) s
| rrun_panic s : rrun W s Panic [] Panicked s
| rrun_vis s o k x s1 tr r s2 :
    W s o x s1 -> rrun W s1 (k x) tr r s2 -> rrun W s (Vis o k) (Ev o x :: tr) r s2.

(** One request stopped after some prefix of its operations (a crash). *)
Inductive rsteps {S A} (W : rworld S) : S -> prog A -> list event -> prog A -> S -> Prop :=
| rsteps_nil s p : rsteps W s p [] p s
| rsteps_vis s o k x s1 tr p' s2 :
    W s o x s1 -> rsteps W s1 (k x) tr p' s2 -> rsteps W s (Vis o k) (Ev o x :: tr) p' s2.

(** A pool of concurrently running requests: for each, what it has done and what
    is left to do.  A step lets one of them perform its next operation. *)
Record thread (A : Type) := Thread { th_past : list event; th_rest : prog A }.
Arguments Thread {A}. Arguments th_past {A}. Arguments th_rest {A}.
Definition start {A} (p : prog A) : thread A := Thread [] p.

Inductive pstep {S A} (W : rworld S) : S * list (thread A) -> S * list (thread A) -> Prop :=
| pstep_one s s' before past o k x after :
    W s o x s' ->
    pstep W (s, before ++ Thread past (Vis o k) :: after)%list
            (s', before ++ Thread (past ++ [Ev o x]) (k x) :: after)%list.

Inductive psteps {S A} (W : rworld S) : S * list (thread A) -> S * list (thread A) -> Prop :=
| psteps_refl c : psteps W c c
| psteps_next c1 c2 c3 : psteps W c1 c2 -> pstep W c2 c3 -> psteps W c1 c3.
