(** * Vocabulary: what was given out works.

    These definitions model no code of /repo. *)
From Verif Require Import Core World Spec TokenSpec Grants TokenEndpoint AuthzSpec SysSpec TraceSpec IsolSpec.

(** What a data layer promises about what it has on record: that it says so when
    asked, and that it creates tokens and disables sessions when told to.  [sess],
    [auth] and [tok] as in [separate_store]. *)
Record answering_store {S} (W : rworld S) (ok : S -> Prop) (sess : S -> string -> option authsession)
  (auth : S -> Z -> option authinfo) (tok : S -> string -> option oauthtoken) : Prop := AnsweringStore {
  an_access : forall s t k a s', ok s -> tok s t = Some k -> W s (OFindByAccess t) a s' -> a = (Some k, None);
  an_active : forall s id i a s', ok s -> auth s id = Some i -> W s (OFindActiveInfo id) a s' -> a = (Some i, None);
  an_session : forall s code x a s', ok s -> sess s code = Some x -> W s (OFindSession code) a s' -> a = (Some x, None);
  an_create : forall s i b a s', ok s -> W s (OCreateToken (Some i) b) a s' ->
    exists k, a = (Some k, None) /\ tok s' (ot_access k) = Some k /\ ot_auth_id k = ai_id i;
  an_by_refresh : forall s t k s', ok s -> W s (OFindByRefresh t) (Some k, None) s' -> tok s (ot_access k) = Some k;
  an_refresh : forall s i old k s', ok s -> W s (ORefresh i old) (Some k, None) s' ->
    tok s' (ot_access k) = Some k /\ exists x, tok s (ot_access old) = Some x /\ ot_auth_id k = ot_auth_id x;
  an_disable : forall s x a s', ok s -> sess s (as_code x) = Some x -> W s (ODisable x) a s' -> a = None;
  an_info : forall s uid cid scope x s', ok s -> W s (OCreateInfo uid cid scope) (x, None) s' -> x <> None;
  an_store : forall s i y s', ok s -> W s (OCreateSession (Some i) y) None s' ->
    exists x, sess s' (s_code y) = Some x /\ as_auth_id x = ai_id i /\ as_redirect x = s_redirect y /\
      as_verifier x = s_verifier y }.

(** Between two moments of an interleaving, no thread but [m] goes on acting for
    client [cid]. *)
Definition undisturbed (cid : string) (m : nat) (progs : list (prog unit)) (ths1 ths2 : list (thread unit)) : Prop :=
  forall n p th1 th2, n <> m -> nth_error progs n = Some p ->
    nth_error ths1 n = Some th1 -> nth_error ths2 n = Some th2 ->
    th1 = th2 \/ ~ acts_for cid p (th_past th2).

(** What happened between two moments of an interleaving. *)
Definition since (ths1 ths2 : list (thread unit)) (e : event) : Prop :=
  exists n th1 th2 t, nth_error ths1 n = Some th1 /\ nth_error ths2 n = Some th2 /\
    th_past th2 = (th_past th1 ++ t)%list /\ In e t.
