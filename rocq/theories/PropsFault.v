(** * C87: the errors of the token endpoint have reasons, and requests without one are served.

    The vocabulary is in Spec.v, TokenSpec.v and FaultSpec.v. *)
From Verif Require Import GoStr Codec Sha Core OAuthError Grants TokenEndpoint Json Jwt Spec TokenSpec FaultSpec
  TokenFacts TokenProofs LogFacts Demo TokenComplete FaultFacts FaultIff.

(** Status, error and description are those of a fault of the request or of an answer
    of the data layer. *)
Theorem C87_errors_have_reasons : forall J te r tr,
  only_bundled J te -> r_method r = "POST" -> exec (token_handler J te r) tr (Done tt) ->
  ~ In 200%Z (statuses tr) ->
  exists st e, error_answer te st e (http_ops tr) /\ reason J te r tr st (oe_type e) (oe_desc e).
Proof. exact errors_have_reasons. Qed.
Print Assumptions C87_errors_have_reasons.

(** There is never a reason against a request that is served. *)
Theorem C87_served_without_reason : forall J te r tr res st e d,
  unordered J -> only_bundled J te -> exec (token_handler J te r) tr res ->
  In 200%Z (statuses tr) -> ~ reason J te r tr st e d.
Proof. exact served_no_reason. Qed.
Print Assumptions C87_served_without_reason.

Theorem C87_served_iff_no_reason : forall J te r tr,
  unordered J -> only_bundled J te -> r_method r = "POST" -> exec (token_handler J te r) tr (Done tt) ->
  (In 200%Z (statuses tr) <-> forall st e d, ~ reason J te r tr st e d).
Proof.
  intros J te r tr HU HB HM HX. split.
  - intros H st e d. exact (served_no_reason J te r tr _ st e d HU HB HX H).
  - intros H. destruct (in_dec Z.eq_dec 200%Z (statuses tr)) as [HI|HI]; [exact HI|].
    destruct (errors_have_reasons J te r tr HB HM HX HI) as (st & e & _ & HR). destruct (H _ _ _ HR).
Qed.
Print Assumptions C87_served_iff_no_reason.

(** The library that goidc uses is of the kind assumed. *)
Theorem C87_claims_are_a_map : forall A, unordered (gojwt A).
Proof. exact gojwt_unordered. Qed.
Print Assumptions C87_claims_are_a_map.

(** A client assertion that fails is to be answered with invalid_client (RFC 7521, 4.2.1):
    an expired one is answered with invalid_grant. *)
Definition late : answers :=
  let w := answers1 "" in
  Answers (w_client w) (w_session w) (w_active w) (w_info w) (w_access w) (w_refresh w) (w_token w) (w_user w)
    (w_disable w) (w_record w) 2001%Z (w_login w) (w_from_login w) (w_auth_time w) (w_login_user w) (w_code w)
    (w_subject w) (w_continue w).

Lemma assertion_shown : presented_assertion te1 assertion_request "h.c.s".
Proof.
  split; [reflexivity|]. split.
  - intros cid sec b H. apply presented_find in H. vm_compute in H. discriminate H.
  - repeat split; try reflexivity. discriminate.
Qed.

Theorem C87_client_assertion_errors_refuted :
  exists J te r ca tr e,
    only_bundled J te /\ presented_assertion te r ca /\ exec (token_handler J te r) tr (Done tt) /\
    client_assertion_fault J ca tr EInvalidGrant "assertion expired" /\
    error_answer te 400 e (http_ops tr) /\ oe_type e = EInvalidGrant.
Proof.
  exists demoJ, te1, assertion_request, "h.c.s", (run_of late te1 assertion_request).
  exists (new_oerr EInvalidGrant "assertion expired").
  split; [apply demo_te_bundled|]. split; [exact assertion_shown|].
  split; [apply run_of_exec; vm_compute; reflexivity|]. split.
  - eapply xf_fault; [reflexivity|reflexivity|vm_compute; left; reflexivity|].
    eapply af_expired with (now := 2001%Z); [|vm_compute; tauto|reflexivity].
    split; [reflexivity|]. exists (KRsaPub 1). split; reflexivity.
  - split; [|reflexivity]. exists (new_oerr EInvalidGrant "assertion expired"). split; [repeat split; reflexivity|]. vm_compute. reflexivity.
Qed.
Print Assumptions C87_client_assertion_errors_refuted.

(** A code exchange without fault; one with a verifier but no challenge; a replayed assertion. *)
Example C87_example :
  unordered demoJ /\ only_bundled demoJ te0 /\
  (exec (token_handler demoJ te0 code_request) (run_of (answers1 "") te0 code_request) (Done tt) /\
   In 200%Z (statuses (run_of (answers1 "") te0 code_request))) /\
  (let r := pkce_request "plain" "" in let tr := run_of (answers1 "verifier1") te0 r in
   exec (token_handler demoJ te0 r) tr (Done tt) /\ statuses tr = [400%Z] /\
   reason demoJ te0 r tr 400 EInvalidRequest "missing 'code_challenge' parameter").
Proof.
  split; [intros alg kid cs cs' k _ _; reflexivity|]. split; [apply demo_te_bundled|].
  split; [split; [apply run_of_exec; vm_compute; reflexivity|vm_compute; tauto]|].
  cbv zeta. split; [apply run_of_exec; vm_compute; reflexivity|]. split; [vm_compute; reflexivity|].
  apply (why_grant demoJ te0 (pkce_request "plain" "") _
    [Ev (OFindClient "client1") (Some client1, None)]
    [Ev (OFindSession "code1") (Some (session1 "verifier1"), None)]
    (tl (tl (tl (run_of (answers1 "verifier1") te0 (pkce_request "plain" "")))))
    (authorization_code demoJ) client1 1010%Z EInvalidRequest "missing 'code_challenge' parameter").
  - eapply (auth_secret demoJ te0 (pkce_request "plain" "") client1 "client1" "secret1" true); [|reflexivity].
    pose proof (find_client_credential_spec te0 (pkce_request "plain" "")) as H.
    replace (find_client_credential te0 (pkce_request "plain" "")) with (Some ("client1", "secret1", true)) in H
      by (vm_compute; reflexivity). exact H.
  - exists [], (tl (te_handlers te0)). split; [reflexivity|intros []].
  - vm_compute. reflexivity.
  - constructor. eapply cd_no_pkce with (k := "code_challenge"); [left; reflexivity|discriminate| |reflexivity].
    right. left. reflexivity.
Qed.
