(** * What is given out amid other calls is on record too (C76, C77).

    [C88_example] in PropsEnd.v is a run that meets the hypotheses of the theorems on token
    and user-approved requests; [C77_silent_example] (PropsSilent.v) is one for silent ones. *)
From Coq Require Import Lia.
From Verif Require Import Core World Spec TokenSpec Grants TokenEndpoint AuthzResponse AuthzEndpoint AuthzSpec AuthzProofs ResourceProtector
  ResourceSpec TestStore SysSpec TraceSpec IsolSpec WorkSpec Hoare Demo SysFacts SysTrace StoreFacts SysDemo ResourceFacts TraceFacts
  IsolFacts LeakFacts WorkFacts AuthzFacts RedeemFacts ViewFacts AmidFacts PropsResource PropsTrace PropsIsol PropsWork PropsSilent.

(** A history of any calls, then further calls, any number of them at once, in any
    interleaving. *)
Definition history {S} (W : rworld S) (ok : S -> Prop) s0 progs s1 (ths1 : list (thread unit)) more s2 (ths2 : list (thread unit)) : Prop :=
  ok s0 /\ Forall goidc progs /\ Forall goidc more /\
  psteps W (s0, map start progs) (s1, ths1) /\ psteps W (s1, ths1 ++ map start more)%list (s2, ths2).

(** The call [p] of the further calls ended as [th]. *)
Definition ended (ths1 : list (thread unit)) more (ths2 : list (thread unit)) (m : nat) (p : prog unit) (th : thread unit) : Prop :=
  nth_error more m = Some p /\ nth_error ths2 (length ths1 + m) = Some th /\ th_rest th = Ret tt.

(** During the further calls, nobody but call [m] acts for client [cid]. *)
Definition alone (cid : string) (progs : list (prog unit)) ths1 more (ths2 : list (thread unit)) (m : nat) : Prop :=
  undisturbed cid (length ths1 + m) (progs ++ more) (ths1 ++ map start more) ths2.

(** The code is new: there is no session for it when the calls start, nobody has
    seen one, and nobody but call [m] stores one. *)
Definition new_code {S} (sess : S -> string -> option authsession) (s1 : S) (ths1 : list (thread unit)) more ths2 m (code : string) : Prop :=
  sess s1 code = None /\ (forall z, ~ In (Ev (OFindSession code) (Some z, None)) (all_events ths1)) /\
  forall e, others_since (length ths1 + m) (ths1 ++ map start more) ths2 e -> stores code (ev_op e) = false.

(** ** C76 *)

(* Whatever others do while the token endpoint works: the access token it gives out
   is on record when the call has ended, for an authorization of the client that
   authenticated, with the scope and the lifetime it names. *)
Theorem C76_given_out_amid_others :
  forall S (W : rworld S) ok sess auth tok genuine s0 progs s1 ths1 more s2 ths2 m J te r th,
  linked_store W ok sess auth -> separate_store W ok sess auth tok genuine -> answering_store W ok sess auth tok ->
  history W ok s0 progs s1 ths1 more s2 ths2 -> ended ths1 more ths2 m (token_handler J te r) th ->
  only_bundled J te -> ~ registered te (form_value r "grant_type") refresh_token ->
  In 200%Z (statuses (th_past th)) ->
  exists c rs, signed_in J te r c (th_past th) /\ http_ops (th_past th) = success_answer rs /\
    (alone (c_id c) progs ths1 more ths2 m ->
     exists k i, tok s2 (rs_access rs) = Some k /\ auth s2 (ot_auth_id k) = Some i /\ ai_client i = c_id c /\
       rs_expires rs = ot_access_expires k /\ rs_refresh rs = ot_refresh k /\ rs_scope rs = ai_scope i).
Proof.
  intros S W ok sess auth tok genuine s0 progs s1 ths1 more s2 ths2 m J te r th L P A (HO & HG & HM & HP & HP2) (Hm & Hth & HR) HB HN HI.
  destruct (amid_tokens W ok sess auth tok genuine L P A s0 progs more s1 ths1 s2 ths2 m HO HG HM HP HP2 J te r th Hm HB HN Hth HR HI)
    as (c & now & tg & rs & k & i & H1 & H2 & H3 & H4 & H5 & H6 & H7).
  exists c, rs. destruct H1 as (ta & l & HA & -> & HH & _ & Hl). split; [exists ta, now; eexists; split; [exact HA|reflexivity]|]. split.
  { change (Ev ONow now :: tg ++ l)%list with ((Ev ONow now :: tg) ++ l)%list.
    rewrite app_assoc, http_ops_app, HH, Hl. reflexivity. }
  intros HU. destruct (H7 HU) as [K1 K2]. exists k, i. auto 10.
Qed.
Print Assumptions C76_given_out_amid_others.

(* The same for what is sent when the user has approved. *)
Theorem C76_sent_amid_others :
  forall S (W : rworld S) ok sess auth tok genuine s0 progs s1 ths1 more s2 ths2 m E pol th,
  linked_store W ok sess auth -> separate_store W ok sess auth tok genuine -> answering_store W ok sess auth tok ->
  history W ok s0 progs s1 ths1 more s2 ths2 -> ended ths1 more ths2 m (done (complete_request E pol)) th ->
  exec (complete_request E pol) (th_past th) (Done true) ->
  exists req i, In (Ev OContinue (Some (Some req))) (th_past th) /\ ai_client i = rq_client req /\
    (alone (rq_client req) progs ths1 more ths2 m ->
     exists params, answered (rq_mode req) (rq_redirect req) params (th_past th) /\
       forall t, In ("access_token", t) params -> exists k, tok s2 t = Some k /\ auth s2 (ot_auth_id k) = Some i).
Proof.
  intros S W ok sess auth tok genuine s0 progs s1 ths1 more s2 ths2 m E pol th L P A (HO & HG & HM & HP & HP2) (Hm & Hth & HR) He.
  destruct (amid_complete W ok sess auth tok genuine L P A s0 progs more s1 ths1 s2 ths2 m HO HG HM HP HP2 E pol th Hm Hth HR He)
    as (req & i & (uid & rest & H1) & H2 & H3).
  exists req, i. split; [rewrite H1; simpl; auto|]. split; [exact H2|].
  intros HU. destruct (H3 HU) as (params & K1 & _ & K3). exists params. split; [exact K1|].
  intros t Ht. destruct (K3 _ Ht) as (k & _ & T1 & T2 & T3). exists k. rewrite T2. auto.
Qed.
Print Assumptions C76_sent_amid_others.

(* ... and for what is sent without asking. *)
Theorem C76_silent_amid_others :
  forall S (W : rworld S) ok sess auth tok genuine s0 progs s1 ths1 more s2 ths2 m E pol r th,
  linked_store W ok sess auth -> separate_store W ok sess auth tok genuine -> answering_store W ok sess auth tok ->
  history W ok s0 progs s1 ths1 more s2 ths2 -> ended ths1 more ths2 m (done (handle_request E pol r)) th ->
  alone (form_value r "client_id") progs ths1 more ths2 m ->
  handled_with pol r (th_past th) (fun q params => forall t, In ("access_token", t) params ->
    exists k i, tok s2 t = Some k /\ auth s2 (ot_auth_id k) = Some i /\ ai_client i = rq_client q).
Proof.
  intros S W ok sess auth tok genuine s0 progs s1 ths1 more s2 ths2 m E pol r th L P A (HO & HG & HM & HP & HP2) (Hm & Hth & HR) HU.
  destruct (done_exec _ _ (amid_exec W ok sess auth L s0 progs more s1 ths1 s2 ths2 m HO HP HP2 _ _ Hm Hth HR)) as [b He].
  destruct (amid_handle W ok sess auth tok genuine L P A s0 progs more s1 ths1 s2 ths2 m HO HG HM HP HP2 E pol r th b Hm Hth HR He HU)
    as [H|[H|(c & q & params & H1 & H2 & H3 & _ & H5)]]; [left; exact H|right; left; exact H|].
  right. right. exists c, q, params. do 3 (split; [assumption|]).
  intros t Ht. destruct (H5 _ Ht) as (i & Hi & k & _ & T1 & T2 & T3). exists k, i. rewrite T2. auto.
Qed.
Print Assumptions C76_silent_amid_others.

(** ** C77 *)

(* A new code that is sent when the user has approved is on record when the call has
   ended, for the authorization just given, with the redirect URI and the challenge of the request. *)
Theorem C77_sent_codes_amid_others :
  forall S (W : rworld S) ok sess auth tok genuine s0 progs s1 ths1 more s2 ths2 m E pol th,
  linked_store W ok sess auth -> separate_store W ok sess auth tok genuine -> answering_store W ok sess auth tok ->
  history W ok s0 progs s1 ths1 more s2 ths2 -> ended ths1 more ths2 m (done (complete_request E pol)) th ->
  exec (complete_request E pol) (th_past th) (Done true) ->
  exists req i, recorded req (Some i) (th_past th) /\ ai_client i = rq_client req /\
    (alone (rq_client req) progs ths1 more ths2 m ->
     exists params, answered (rq_mode req) (rq_redirect req) params (th_past th) /\
       forall code, In ("code", code) params -> new_code sess s1 ths1 more ths2 m code ->
         exists x, sess s2 code = Some x /\ auth s2 (as_auth_id x) = Some i /\
           as_redirect x = rq_redirect req /\ as_verifier x = rq_verifier req /\
           forall z, In (Ev (OFindSession code) (Some z, None)) (all_events ths2) -> z = x).
Proof.
  intros S W ok sess auth tok genuine s0 progs s1 ths1 more s2 ths2 m E pol th L P A (HO & HG & HM & HP & HP2) (Hm & Hth & HR) He.
  destruct (amid_complete W ok sess auth tok genuine L P A s0 progs more s1 ths1 s2 ths2 m HO HG HM HP HP2 E pol th Hm Hth HR He)
    as (req & i & H1 & H2 & H3).
  exists req, i. split; [exact H1|]. split; [exact H2|].
  intros HU. destruct (H3 HU) as (params & K1 & K2 & _). exists params. split; [exact K1|].
  intros code Hc HF. destruct (K2 _ Hc HF) as (x & X1 & X2 & X3 & X4 & X5 & X6). exists x. rewrite X2. auto.
Qed.
Print Assumptions C77_sent_codes_amid_others.

Theorem C77_silent_codes_amid_others :
  forall S (W : rworld S) ok sess auth tok genuine s0 progs s1 ths1 more s2 ths2 m E pol r th,
  linked_store W ok sess auth -> separate_store W ok sess auth tok genuine -> answering_store W ok sess auth tok ->
  history W ok s0 progs s1 ths1 more s2 ths2 -> ended ths1 more ths2 m (done (handle_request E pol r)) th ->
  alone (form_value r "client_id") progs ths1 more ths2 m ->
  handled_with pol r (th_past th) (fun q params => forall code, In ("code", code) params -> new_code sess s1 ths1 more ths2 m code ->
    exists x i, sess s2 code = Some x /\ auth s2 (as_auth_id x) = Some i /\ ai_client i = rq_client q /\
      as_redirect x = rq_redirect q /\ as_verifier x = rq_verifier q /\
      forall z, In (Ev (OFindSession code) (Some z, None)) (all_events ths2) -> z = x).
Proof.
  intros S W ok sess auth tok genuine s0 progs s1 ths1 more s2 ths2 m E pol r th L P A (HO & HG & HM & HP & HP2) (Hm & Hth & HR) HU.
  destruct (done_exec _ _ (amid_exec W ok sess auth L s0 progs more s1 ths1 s2 ths2 m HO HP HP2 _ _ Hm Hth HR)) as [b He].
  destruct (amid_handle W ok sess auth tok genuine L P A s0 progs more s1 ths1 s2 ths2 m HO HG HM HP HP2 E pol r th b Hm Hth HR He HU)
    as [H|[H|(c & q & params & H1 & H2 & H3 & H4 & _)]]; [left; exact H|right; left; exact H|].
  right. right. exists c, q, params. do 3 (split; [assumption|]).
  intros code Hc HF. destruct (H4 _ Hc) as (i & Hi & K). destruct (K HF) as (x & X1 & X2 & X3 & X4 & X5 & X6). exists x, i. rewrite X2. auto 8.
Qed.
Print Assumptions C77_silent_codes_amid_others.
