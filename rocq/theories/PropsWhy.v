(** * Errors of the authorization endpoint say what is wrong.

    [exec p tr res]: a run of [p] performs the operations of [tr] and ends with [res].
    The vocabulary is in WhySpec.v, FlowSpec.v and AuthzSpec.v. *)
From Coq Require Import Lia.
From Verif Require Import StrFacts GoStr Codec Sha Utils Core IdToken Assertion AuthzResponse AuthzEndpoint Spec TokenSpec
  AuthzSpec UtilsFacts Hoare ShaFacts AuthzFacts AuthzDecide AuthzValidate AuthzProofs AuthzMore Demo
  FlowSpec ReasonFacts OutcomeFacts PropsAuthz PropsFlow WpTac WhySpec WhyFacts.

(** ** C92 Authorization errors say what is wrong *)

(* Every finished run is explained: an error names the first fault of the request, or what
   went wrong later, and nothing but an error follows a fault. *)
Theorem C92_errors_say_why : forall E pol r tr b,
  exec (handle_request E pol r) tr (Done b) -> explained E pol r tr b.
Proof. exact handle_explained. Qed.
Print Assumptions C92_errors_say_why.

(* A fault is always reported, with its own words; the user is not asked, nothing is issued. *)
Theorem C92_first_fault_is_reported : forall E pol r c tr b n typ desc,
  exec (handle_request E pol r) tr (Done b) -> approved r c tr -> first_fault_at pol r c n typ desc ->
  b = false /\ exists mode, error_mode pol r n mode /\ reported mode (form_value r "redirect_uri") (form_value r "state") typ desc tr.
Proof.
  intros E pol r c tr b n typ desc H HA HF. pose proof HF as (HF1 & HF2).
  destruct (handle_explained _ _ _ _ _ H) as [_ H1 _|c' m typ' desc' HA' HR HX HB|c' q HA' HN|c' q i p t HA' HN].
  - destruct (H1 c HA).
  - pose proof (approved_unique _ _ _ _ HA HA') as <-. destruct HX as [(n' & HX & HM)|[HX _]]; [|destruct (HX _ _ _ HF1)].
    destruct (first_fault_at_fun _ _ _ _ _ _ _ _ _ HF HX) as (-> & -> & ->). eauto.
  - pose proof (approved_unique _ _ _ _ HA HA') as <-. destruct (HN _ _ _ HF1).
  - pose proof (approved_unique _ _ _ _ HA HA') as <-. destruct (HN _ _ _ HF1).
Qed.
Print Assumptions C92_first_fault_is_reported.

(* There is one first fault at most, and none exactly if the request is well formed and the
   client may use its flow and scope. *)
Theorem C92_one_first_fault : forall pol r c n typ desc n' typ' desc',
  first_fault_at pol r c n typ desc -> first_fault_at pol r c n' typ' desc' -> n = n' /\ typ = typ' /\ desc = desc'.
Proof. exact first_fault_at_fun. Qed.
Print Assumptions C92_one_first_fault.

Theorem C92_no_fault : forall pol r c,
  (forall n typ desc, ~ param_fault pol r c n typ desc) <->
  well_formed pol r /\
  (forall f, asks_for r f -> c_can_flow c (f_type f) = true /\
     forall s, offline_rule f (form_value r "prompt") (form_value r "scope") s -> c_can_scope c (f_type f) s = true).
Proof. exact no_fault_iff. Qed.
Print Assumptions C92_no_fault.

(* A request with faults has a first one. *)
Theorem C92_some_fault : forall pol r c n typ desc,
  param_fault pol r c n typ desc -> exists n' typ' desc', first_fault_at pol r c n' typ' desc'.
Proof. exact some_fault. Qed.
Print Assumptions C92_some_fault.

(* The answers of CompleteRequest and CancelRequest have no description. *)
Theorem C92_complete : forall E pol tr,
  exec (complete_request E pol) tr (Done false) ->
  (In (Ev OContinue None) tr /\ http_ops tr = []) \/
  exists q rest, tr = Ev OContinue (Some (Some q)) :: rest /\
    (reported (rq_mode q) (rq_redirect q) (rq_state q) "server_error" "" tr \/
     exists f, rq_flow q = Some f /\ f_type f = FDirectGrant /\ http_ops tr = []).
Proof. exact complete_says. Qed.
Print Assumptions C92_complete.

Theorem C92_cancel : forall E tr,
  exec (cancel_request E) tr (Done true) ->
  exists q rest, tr = Ev OContinue (Some (Some q)) :: rest /\
    reported (rq_mode q) (rq_redirect q) (rq_state q) "access_denied" "" tr.
Proof. exact cancel_says. Qed.
Print Assumptions C92_cancel.

(* A request with two faults: an unknown display, and a max_age that is no number. *)
Definition faulty_request : request :=
  authz_request [("response_type", "code"); ("scope", "openid email"); ("display", "tv"); ("max_age", "x"); ("state", "s1")].
Example C92_example :
  let tr := trace_of answers2 (handle faulty_request) in
  exec (handle faulty_request) tr (Done false) /\ approved faulty_request client1 tr /\
  param_fault default_policy faulty_request client1 6 "invalid_request" "'max_age' should be integer: 'x'" /\
  first_fault_at default_policy faulty_request client1 5 "invalid_request" "unknown 'display': 'tv'" /\
  reported "query" "https://rp.example/cb" "s1" "invalid_request" "unknown 'display': 'tv'" tr.
Proof.
  cbv zeta.
  assert (HF : asks_for faulty_request code_flow) by (apply judge_asks; vm_compute; reflexivity).
  assert (HE : exec (handle faulty_request) (trace_of answers2 (handle faulty_request)) (Done false))
    by (apply demo_run; vm_compute; reflexivity).
  assert (HA : approved faulty_request client1 (trace_of answers2 (handle faulty_request))).
  { split; [discriminate|]. split; [discriminate|]. split; [vm_compute; reflexivity|].
    exists None. eexists. split; [vm_compute; reflexivity|exact I]. }
  assert (HT : form_value faulty_request "display" = "tv") by (vm_compute; reflexivity).
  assert (HM : form_value faulty_request "response_mode" = "") by (vm_compute; reflexivity).
  assert (H1 : first_fault_at default_policy faulty_request client1 5 "invalid_request" "unknown 'display': 'tv'").
  { split.
    - apply (q_display default_policy faulty_request client1); rewrite HT; [discriminate|]. simpl. intuition discriminate.
    - intros m t d Hf. destruct Hf as [H|H1 H2|f' Hf H1 H2 H3|f' Hf H1 H2 H3 H4 H5|f' Hf H1| | | | | | | | | | | |]; try lia.
      + vm_compute in H. discriminate H.
      + destruct (H2 _ HF).
      + congruence.
      + rewrite HM in H3. destruct (H3 eq_refl).
      + pose proof (asks_unique _ _ _ HF Hf) as <-. vm_compute in H1. discriminate H1. }
  split; [exact HE|]. split; [exact HA|]. split; [|split; [exact H1|]].
  - apply (q_age default_policy faulty_request client1); [discriminate|vm_compute; reflexivity].
  - destruct (C92_first_fault_is_reported _ _ _ _ _ _ _ _ _ HE HA H1) as [_ (m & HMO & K)].
    assert (m = "query") as ->.
    { destruct (HMO _ HF) as [[->|[-> K0]] _]; [reflexivity|]. rewrite HM in K0. destruct (K0 eq_refl). }
    assert (HU : form_value faulty_request "redirect_uri" = "https://rp.example/cb") by (vm_compute; reflexivity).
    assert (HS : form_value faulty_request "state" = "s1") by (vm_compute; reflexivity).
    rewrite HU, HS in K. exact K.
Qed.

(* And a completed and a cancelled one. *)
Example C92_example_cancel :
  exec (cancel_request demoE) (trace_of (storing (Some (stored_request FHybrid true true)) answers2) (cancel_request demoE)) (Done true).
Proof. apply demo_run. vm_compute. reflexivity. Qed.
