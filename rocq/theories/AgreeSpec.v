(** * Vocabulary: ID tokens that agree.

    These definitions model no code of /repo. *)
From Verif Require Import Core World Spec TokenSpec AuthzResponse AuthzEndpoint AuthzSpec.

(** What a data layer promises beyond [linked_store] (SysSpec.v): a stored session
    keeps the nonce and the time of authentication it was stored with; the subject of
    an authorization does not change; the issuer has one name. *)
Record steady_store {S} (W : rworld S) (ok : S -> Prop) (sess : S -> string -> option authsession)
  (auth : S -> Z -> option authinfo) : Prop := SteadyStore {
  sl_stored : forall s o a s' code x, ok s -> W s o a s' -> sess s' code = Some x ->
    sess s code = Some x \/
    exists i y, Ev o a = Ev (OCreateSession (Some i) y) None /\ s_code y = code /\
      as_nonce x = s_nonce y /\ as_auth_time x = s_auth_time y;
  sl_subject : forall s o a s' id i i', ok s -> W s o a s' -> auth s id = Some i -> auth s' id = Some i' ->
    ai_subject i = ai_subject i';
  sl_issuer : forall s1 iss1 s1' s2 iss2 s2', ok s1 -> ok s2 ->
    W s1 OIssuer iss1 s1' -> W s2 OIssuer iss2 s2' -> iss1 = iss2 }.

(** The run [past] of [p] completed an authorization request and sent the client an
    answer; [E]: the environment it ran in (JWT library and random source). *)
Definition sent_success (p : prog unit) (past : list event) (E : env) : Prop :=
  http_ops past <> [] /\
  ((exists pol, p = bind (complete_request E pol) (fun _ => Ret tt) /\ exec (complete_request E pol) past (Done true))
   \/ (exists pol r, p = bind (handle_request E pol r) (fun _ => Ret tt) /\
         exec (handle_request E pol r) past (Done true))).

(** An ID token sent beside a code says the same as the one the code is exchanged
    for: about the same user of the same client, by the same issuer, with the same
    nonce and time of authentication; and it names the code by its hash. *)
Definition agrees (E : env) (c : client) (code iss sub nonce : string) (at_ : Z) (past : list event) (idt : string)
  : Prop :=
  exists c' cs exp now ah ch,
    In (Ev (OFindClient (c_id c)) (Some c', None)) past /\
    id_claims cs iss (c_id c) sub nonce exp at_ now ah (Some ch) /\
    signed_for (e_jwt E) c' cs idt /\ hash_claim (c_alg c') (Some code) (Some ch).
