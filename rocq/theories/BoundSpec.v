(** * Vocabulary: how much a request does.

    These definitions model no code of /repo. *)
From Verif Require Import Core Spec.

(** How many of the events of [tr] are operations of kind [P]. *)
Definition times (P : op -> bool) (tr : list event) : nat := length (filter (fun e => P (ev_op e)) tr).

(** Kinds of operations.  [is_data] (Spec.v): calls of the data layer. *)
Definition makes_token (o : op) : bool := match o with OCreateToken _ _ | ORefresh _ _ => true | _ => false end.
Definition makes_session (o : op) : bool := match o with OCreateSession _ _ => true | _ => false end.
Definition makes_info (o : op) : bool := match o with OCreateInfo _ _ _ => true | _ => false end.
Definition ends_session (o : op) : bool := match o with ODisable _ => true | _ => false end.
Definition is_log (o : op) : bool := match o with OLog _ _ _ => true | _ => false end.

(** A run makes at most [calls] calls of the data layer, among them at most [tokens]
    that make tokens, [sessions] that store sessions, [infos] that record
    authorizations, [gone] that disable sessions; and writes at most [logs] log
    entries. *)
Definition work_within (calls tokens sessions infos gone logs : nat) (tr : list event) : Prop :=
  (times is_data tr <= calls)%nat /\ (times makes_token tr <= tokens)%nat /\
  (times makes_session tr <= sessions)%nat /\ (times makes_info tr <= infos)%nat /\
  (times ends_session tr <= gone)%nat /\ (times is_log tr <= logs)%nat.
