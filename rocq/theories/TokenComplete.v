(** * What the endpoint accepts: completeness lemmas and counterexamples. *)
From Coq Require Import Lia.
From Verif Require Import WpTac Utils OAuthError IdToken Assertion Grants TokenEndpoint
  TokenSpec UtilsFacts GrantFacts TokenFacts TokenProofs LogFacts Demo Sha.

Lemma rfc4648_nonempty s : s <> "" -> rfc4648_url s <> "".
Proof.
  intros H E. apply (f_equal String.length) in E. rewrite <- b64url_nopad_rfc, b64url_nopad_length in E.
  destruct s; [congruence|]. cbn [String.length] in E. revert E.
  generalize (String.length s). intros n E.
  apply Nat.div_small_iff in E; lia.
Qed.

Lemma pkce_check_passes r c v :
  (v = "" \/ (form_value r "code_challenge" <> "" /\ pkce_passed r v)) ->
  pkce_check r c v = Ret None.
Proof.
  unfold pkce_check. intros [->|[H1 H2]]; [reflexivity|].
  destruct (v =s? "") eqn:E; sdestruct; [reflexivity|].
  destruct H2 as [H2|H2]; [congruence|].
  destruct (form_value r "code_challenge_method" =s? "") eqn:E2; sdestruct.
  { destruct H2 as [[H2 _]|[H2 _]]; congruence. }
  destruct (form_value r "code_challenge" =s? "") eqn:E3; sdestruct; [congruence|].
  apply pkce_spec in H2. destruct H2 as (m & H3 & H4). rewrite H3, H4. reflexivity.
Qed.

(** When every check passes and the data layer answers, the exchange succeeds;
    neither the age nor the lifetime of the session is looked at. *)
Lemma code_exchange_complete J r c now sess info tok :
  code_checks r c sess info ->
  (as_verifier sess <> "" -> form_value r "code_challenge" <> "") ->
  ~ has_word (ai_scope info) "openid" ->
  exec (authorization_code J r c now)
    (found_calls r sess info ++
     [Ev (OCreateToken (Some info) true) (Some tok, None); Ev (ODisable sess) None])%list
    (Done (inl (Response (ot_access tok) (ot_access_expires tok) (ot_refresh tok) (ai_scope info) ""))).
Proof.
  intros (H1 & H2 & H3 & H4 & H5) H6 H7. unfold authorization_code.
  destruct (form_value r "redirect_uri" =s? "") eqn:E1; sdestruct; [congruence|].
  destruct (form_value r "code" =s? "") eqn:E2; sdestruct; [congruence|].
  unfold found_calls. cbn [bind call app].
  apply exec_vis. cbn [dcheck bind call]. apply exec_vis. cbn [dcheck].
  rewrite H3, H4, !seqb_refl. cbn [negb].
  rewrite (pkce_check_passes r c (as_verifier sess)).
  2: { destruct (as_verifier sess =s? "") eqn:E; sdestruct; auto. }
  cbn [bind call]. apply exec_vis. cbn [dcheck bind call]. apply exec_vis. cbn [echeck].
  unfold code_id_token. apply include_word_false in H7. unfold include_openid, OpenID. rewrite H7.
  constructor.
Qed.

(** ** Bundled demo endpoint *)

Lemma demo_te_bundled acc b : only_bundled demoJ (demo_te acc b).
Proof.
  intros gt h H. simpl in H.
  repeat match type of H with _ \/ _ => destruct H as [H|H] | False => destruct H end;
    injection H as <- <-; constructor.
Qed.


Lemma demo_registered acc b :
  registered (demo_te acc b) "authorization_code" (authorization_code demoJ) /\
  registered (demo_te acc b) "refresh_token" refresh_token /\
  registered (demo_te acc b) "password" password_grant /\
  registered (demo_te acc b) "client_credentials" client_credentials /\
  registered (demo_te acc b) TypeJWT (jwt_grant demoJ).
Proof. repeat split; apply find_handler_some; reflexivity. Qed.

(** ** Counterexamples *)

Definition with_client (c : client) (w : answers) : answers :=
  Answers (fun _ => (Some c, None)) (w_session w) (w_active w) (w_info w) (w_access w) (w_refresh w)
    (w_token w) (w_user w) (w_disable w) (w_record w) (w_now w) (w_login w) (w_from_login w)
    (w_auth_time w) (w_login_user w) (w_code w) (w_subject w) (w_continue w).

Definition assertion_request : request :=
  req [] [] [("grant_type", "client_credentials"); ("client_assertion", "h.c.s");
             ("client_assertion_type", ClientAssertionTypeJWT)].

Lemma assertion_skips_grant_type :
  exists J te r tr c,
    only_bundled J te /\ exec (token_handler J te r) tr (Done tt) /\ In 200%Z (statuses tr) /\
    (exists cid rest, tr = Ev (OFindClient cid) (Some c, None) :: rest) /\
    c_can_grant c (form_value r "grant_type") = false.
Proof.
  set (c0 := demo_client (fun _ => false)).
  exists demoJ, (demo_te FromHeader true), assertion_request.
  exists (trace_of (with_client c0 (answers1 "")) (token_handler demoJ (demo_te FromHeader true) assertion_request)), c0.
  split; [apply demo_te_bundled|].
  split; [apply demo_run; vm_compute; reflexivity|].
  split; [vm_compute; auto|].
  split; [|reflexivity].
  eexists _, _. vm_compute. reflexivity.
Qed.

Lemma malformed_assertion_crashes :
  exists J te r,
    only_bundled J te /\ r_method r = "POST" /\ te_handlers te <> [] /\
    (exists tr, exec (token_handler J te r) tr Panicked).
Proof.
  exists demoJ, (demo_te FromHeader true),
    (req [] [] [("grant_type", "client_credentials"); ("client_assertion", "not a jwt");
                ("client_assertion_type", ClientAssertionTypeJWT)]).
  split; [apply demo_te_bundled|]. split; [reflexivity|]. split; [discriminate|].
  eexists. apply (demo_run (answers1 "")). vm_compute. reflexivity.
Qed.

Definition expired_answers : answers :=
  let w := answers1 "" in
  Answers (w_client w) (w_session w) (w_active w) (w_info w) (w_access w) (w_refresh w)
    (w_token w) (w_user w) (w_disable w) (w_record w) 1000000 (w_login w) (w_from_login w)
    (w_auth_time w) (w_login_user w) (w_code w) (w_subject w) (w_continue w).

Lemma expired_code_accepted :
  exists J te r tr sess now,
    only_bundled J te /\ exec (token_handler J te r) tr (Done tt) /\ In 200%Z (statuses tr) /\
    In (Ev (OFindSession (form_value r "code")) (Some sess, None)) tr /\ In (Ev ONow now) tr /\
    (as_created sess + as_expires sess < now)%Z /\
    (0 <= as_created sess)%Z /\ (0 <= as_expires sess)%Z.
Proof.
  exists demoJ, (demo_te FromHeader false), code_request.
  exists (trace_of expired_answers (token_handler demoJ (demo_te FromHeader false) code_request)),
    (session1 ""), 1000000%Z.
  split; [apply demo_te_bundled|]. split; [apply demo_run; vm_compute; reflexivity|].
  split; [vm_compute; auto|]. split; [vm_compute; auto|]. split; [vm_compute; auto|].
  vm_compute. split; [auto|split; discriminate].
Qed.

Definition unknown_user : answers :=
  let w := answers1 "" in
  Answers (w_client w) (w_session w) (w_active w) (w_info w) (w_access w) (w_refresh w)
    (w_token w) ((-1)%Z, Some ErrFailed) (w_disable w) (w_record w) (w_now w) (w_login w) (w_from_login w)
    (w_auth_time w) (w_login_user w) (w_code w) (w_subject w) (w_continue w).

Lemma password_logged :
  exists J te r tr attrs,
    only_bundled J te /\ exec (token_handler J te r) tr (Done tt) /\
    In attrs (logged tr) /\ In ("password", form_value r "password") attrs /\
    form_value r "password" <> "".
Proof.
  set (r := req [basic1] [] [("grant_type", "password"); ("username", "alice"); ("password", "hunter2")]).
  exists demoJ, (demo_te FromHeader false), r.
  exists (trace_of unknown_user (token_handler demoJ (demo_te FromHeader false) r)).
  eexists. split; [apply demo_te_bundled|]. split; [apply demo_run; vm_compute; reflexivity|].
  split; [vm_compute; left; reflexivity|]. split; [vm_compute; auto 6|discriminate].
Qed.

(** Whoever has seen the code_verifier of the authorization request can produce
    PKCE parameters that pass, under both methods. *)
Lemma pkce_from_leaked_request :
  exists observer : string -> string * string,
  forall J r c now sess info tok,
    form_value r "redirect_uri" <> "" -> form_value r "code" <> "" ->
    ai_client info = c_id c -> as_redirect sess = form_value r "redirect_uri" ->
    as_verifier sess <> "" -> ~ has_word (ai_scope info) "openid" ->
    (form_value r "code_challenge_method", form_value r "code_challenge")
      = observer (as_verifier sess) ->
    exists tr rs, exec (authorization_code J r c now) tr (Done (inl rs)) /\ rs_access rs = ot_access tok.
Proof.
  exists (fun v => ("plain", v)).
  intros J r c now sess info tok H1 H2 H3 H4 H5 H6 H7. injection H7 as H7 H8.
  eexists _, _. split.
  - apply (code_exchange_complete J r c now sess info tok); [|intros _|assumption].
    + repeat split; auto. right. left. auto.
    + congruence.
  - reflexivity.
Qed.
