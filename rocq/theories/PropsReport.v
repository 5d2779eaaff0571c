(** * What operators are told.

    [exec p tr res]: a run of [p] performs the operations of [tr] and ends with [res].
    The vocabulary is in ReportSpec.v. *)
From Verif Require Import StrFacts Core OAuthError IdToken Assertion Grants TokenEndpoint Spec TokenSpec Hoare
  ResourceProtector AuthzResponse AuthzEndpoint Demo TokenComplete TokenProofs PropsToken PropsResource PropsAuthz ReportSpec ReportFacts ReportAuthz.

(** ** C93 Breakdowns are reported to the operator *)

(* The token endpoint. *)
Theorem C93_token_breakdowns_reported : forall J te r tr res,
  only_bundled J te -> exec (token_handler J te r) tr res -> breakdowns_reported tr.
Proof. intros J te r tr res HB HX. exact (all_reported _ _ _ (token_reports J te r HB) HX). Qed.
Print Assumptions C93_token_breakdowns_reported.

Theorem C93_token_reports_true : forall J te r tr res,
  only_bundled J te -> exec (token_handler J te r) tr res -> reports_true tr.
Proof. intros J te r tr res HB HX. exact (reports_sound _ _ _ _ (token_reports J te r HB) HX). Qed.
Print Assumptions C93_token_reports_true.

(* Every answer of the token endpoint is preceded by a line; "granted" goes with 200 and
   with nothing else.  An answer of 500 comes with exactly one line at warning level or
   above in the whole run; other answers come with none, but for three oddities. *)
Theorem C93_token_answers_are_logged : forall J te r tr,
  only_bundled J te -> exec (token_handler J te r) tr (Done tt) ->
  exists st l k, answers_after tr st l k /\ (k = AccessTokenGranted <-> st = 200%Z) /\
    ((st <> 500%Z /\ alarms tr = []) \/
     (st = 500%Z /\ exists a, alarms tr = [a] /\ server_alarm a) \/
     (st = 400%Z /\ exists a, alarms tr = [a] /\ odd_alarm a)).
Proof.
  intros J te r tr HB HX. destruct (wp_exec _ _ _ _ _ (token_told J te r HB) HX) as (st & l & k & H1 & H2 & H3).
  exists st, l, k. split; [exact H1|]. split; [exact H2|].
  destruct H3 as [[HA HS]|(a & HA & [[-> HS]|[-> HS]])]; eauto 6.
Qed.
Print Assumptions C93_token_answers_are_logged.

(* The resource protector: the same, but for an authorization lookup that answers nothing. *)
Theorem C93_protector_breakdowns_reported : forall rp r tr res t1 e t2 b,
  exec (validate rp r) tr res -> tr = (t1 ++ e :: t2)%list -> breakdown_of e = Some b ->
  (exists e' t3, t2 = e' :: t3 /\ reports (ev_op e) b e') \/
  (t2 = [] /\ b = NoAnswer /\ res = Panicked /\ exists id, e = Ev (OFindActiveInfo id) (None, None)).
Proof. intros. eapply protector_reported; eauto. apply validate_reports. Qed.
Print Assumptions C93_protector_breakdowns_reported.

Theorem C93_protector_scopes_breakdowns_reported : forall rp r m tr res t1 e t2 b,
  exec (validate_with_scopes rp r m) tr res -> tr = (t1 ++ e :: t2)%list -> breakdown_of e = Some b ->
  (exists e' t3, t2 = e' :: t3 /\ reports (ev_op e) b e') \/
  (t2 = [] /\ b = NoAnswer /\ res = Panicked /\ exists id, e = Ev (OFindActiveInfo id) (None, None)).
Proof. intros. eapply protector_reported; eauto. apply validate_scopes_reports. Qed.
Print Assumptions C93_protector_scopes_breakdowns_reported.

Theorem C93_protector_reports_true :
  (forall rp r tr res, exec (validate rp r) tr res -> reports_true tr) /\
  (forall rp r m tr res, exec (validate_with_scopes rp r m) tr res -> reports_true tr).
Proof.
  split; intros.
  - eapply reports_sound; [apply validate_reports|eassumption].
  - eapply reports_sound; [apply validate_scopes_reports|eassumption].
Qed.
Print Assumptions C93_protector_reports_true.

(* The authorization endpoint: errors of the callbacks. *)
Theorem C93_authorization_callbacks_reported :
  (forall E pol r tr res, exec (handle_request E pol r) tr res -> callbacks_reported tr /\ callback_reports_true tr) /\
  (forall E pol tr res, exec (complete_request E pol) tr res -> callbacks_reported tr /\ callback_reports_true tr) /\
  (forall E tr res, exec (cancel_request E) tr res -> callbacks_reported tr /\ callback_reports_true tr).
Proof.
  split; [|split]; intros; eapply callbacks_told; eauto; [apply handle_a|apply complete_request_a|apply cancel_a].
Qed.
Print Assumptions C93_authorization_callbacks_reported.

(** *** What is not so *)

(** A world in which some methods break down. *)
Definition failing (w : answers) : world unit := fun s o =>
  match o as o0 return (unit * ans o0)%type with
  | ODisable _ => (tt, Some ErrServerError)
  | OCreateInfo _ _ _ => (tt, (None, Some ErrServerError))
  | OFindActiveInfo _ => (tt, (None, None))
  | o' => answering w s o'
  end.
Definition failing_run {A} (w : answers) (p : prog A) : list event := snd (fst (run (failing w) tt p)).
Lemma failing_exec {A} w (p : prog A) x : snd (run (failing w) tt p) = x -> exec p (failing_run w p) x.
Proof.
  intros <-. unfold failing_run. destruct (run (failing w) tt p) as [[s tr] r] eqn:E. eapply run_exec. exact E.
Qed.

Definition no_disable : answers :=
  let w := answers1 "" in
  Answers (w_client w) (w_session w) (w_active w) (w_info w) (w_access w) (w_refresh w) (w_token w) (w_user w)
    (Some ErrServerError) (w_record w) (w_now w) (w_login w) (w_from_login w) (w_auth_time w)
    (w_login_user w) (w_code w) (w_subject w) (w_continue w).

(* The line does not always name the method that broke down. *)
Theorem C93_method_names_refuted :
  exists J te r tr t1 o x l k m attrs t2,
    only_bundled J te /\ exec (token_handler J te r) tr (Done tt) /\
    tr = (t1 ++ Ev o x :: Ev (OLog l k (("method", m) :: attrs)) tt :: t2)%list /\
    breakdown_of (Ev o x) = Some OwnError /\ m <> method_of o.
Proof.
  exists demoJ, te0, code_request, (run_of no_disable te0 code_request).
  exists (firstn 5 (run_of no_disable te0 code_request)), (ODisable (session1 "")), (Some ErrServerError),
    LWarn, InterfaceServerError, "DisableCode", [("client_id", "client1")], (skipn 7 (run_of no_disable te0 code_request)).
  split; [apply demo_te_bundled|]. split; [apply run_of_exec; vm_compute; reflexivity|].
  split; [vm_compute; reflexivity|]. split; [reflexivity|discriminate].
Qed.
Print Assumptions C93_method_names_refuted.

(* The protector crashes without a word if the lookup of the authorization answers nothing. *)
Theorem C93_protector_nothing_refuted :
  exists rp r tr id, exec (validate rp r) tr Panicked /\ logged tr = [] /\
    In (Ev (OFindActiveInfo id) (None, None)) tr.
Proof.
  exists rp0, forged, (failing_run (answers1 "") (validate rp0 forged)), 7%Z.
  split; [apply failing_exec; vm_compute; reflexivity|]. split; [vm_compute; reflexivity|vm_compute; tauto].
Qed.
Print Assumptions C93_protector_nothing_refuted.

(* The authorization endpoint says nothing about breakdowns of the data layer after the
   client was looked up. *)
Theorem C93_authorization_data_refuted :
  exists E pol tr e, exec (complete_request E pol) tr (Done false) /\ In e tr /\
    breakdown_of e = Some OwnError /\ logged tr = [].
Proof.
  exists demoE, default_policy,
    (failing_run (storing (Some (stored_request FHybrid true true)) answers2) (complete_request demoE default_policy)).
  eexists (Ev (OCreateInfo 42 "client1" "openid email") (None, Some ErrServerError)).
  split; [apply failing_exec; vm_compute; reflexivity|]. split; [vm_compute; tauto|]. split; [reflexivity|vm_compute; reflexivity].
Qed.
Print Assumptions C93_authorization_data_refuted.

(** *** The hypotheses can be met *)
Definition no_password : answers :=
  let w := answers1 "" in
  Answers (w_client w) (w_session w) (w_active w) (w_info w) (w_access w) (w_refresh w) (w_token w)
    (0%Z, Some ErrUnsupported) (w_disable w) (w_record w) (w_now w) (w_login w) (w_from_login w) (w_auth_time w)
    (w_login_user w) (w_code w) (w_subject w) (w_continue w).
Example C93_example_token :
  let tr := run_of no_password te0 password_request in
  only_bundled demoJ te0 /\ exec (token_handler demoJ te0 password_request) tr (Done tt) /\
  In (Ev (OFindUser "alice" "hunter2") (0%Z, Some ErrUnsupported)) tr /\
  breakdown_of (Ev (OFindUser "alice" "hunter2") (0%Z, Some ErrUnsupported)) = Some NotProvided /\
  alarms tr = [InterfaceUnsupported] /\ statuses tr = [500%Z] /\
  alarms (run_of (answers1 "") te0 password_request) = [] /\ statuses (run_of (answers1 "") te0 password_request) = [200%Z].
Proof.
  cbv zeta. split; [apply demo_te_bundled|]. split; [apply run_of_exec; vm_compute; reflexivity|].
  split; [vm_compute; tauto|]. repeat split; vm_compute; reflexivity.
Qed.

Definition no_session : answers :=
  let w := answers2 in
  Answers (w_client w) (w_session w) (w_active w) (w_info w) (w_access w) (w_refresh w) (w_token w)
    (w_user w) (w_disable w) (w_record w) (w_now w) None (w_from_login w) (w_auth_time w)
    (w_login_user w) (w_code w) (w_subject w) (w_continue w).
Example C93_example_authorization :
  let tr := trace_of no_session (handle hybrid_request) in
  exec (handle hybrid_request) tr (Done false) /\ In (Ev OConfirmLogin None) tr /\
  callback_error (Ev OConfirmLogin None) = true /\
  In (Ev (OLog LError InterfaceError [("method", "ConfirmLoginSession")]) tt) tr.
Proof.
  cbv zeta. split; [apply demo_run; vm_compute; reflexivity|]. split; [vm_compute; tauto|].
  split; [reflexivity|vm_compute; tauto].
Qed.
