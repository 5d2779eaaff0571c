(** * Assertions, request parameters and the standard names.

    The vocabulary is in Spec.v, TokenSpec.v and AssertSpec.v. *)
From Verif Require Import GoStr Codec Sha Utils Core OAuthError Assertion Grants TokenEndpoint AuthzResponse
  AuthzEndpoint Spec TokenSpec AuthzSpec AssertSpec
  TokenFacts TokenProofs LogFacts Demo TokenComplete TokenMore AssertFacts FlowFacts.

(** ** C59 What is recorded about assertions is true. *)

Theorem C59_recorded_truthfully : forall J te r tr res t1 cid jti iat exp x t2,
  only_bundled J te -> exec (token_handler J te r) tr res ->
  tr = (t1 ++ Ev (ORecord cid jti iat exp) x :: t2)%list ->
  records J te r t1 cid jti iat exp.
Proof. exact recorded_truthfully. Qed.
Print Assumptions C59_recorded_truthfully.

Example C59_example : only_bundled demoJ te1 /\
  exec (token_handler demoJ te1 jwt_request) (run_of (answers1 "") te1 jwt_request) (Done tt) /\
  In (Ev (ORecord "client1" "jti1" 1000 2000) None) (run_of (answers1 "") te1 jwt_request) /\
  exec (token_handler demoJ te1 assertion_request) (run_of (answers1 "") te1 assertion_request) (Done tt) /\
  In (Ev (ORecord "client1" "jti1" 1000 2000) None) (run_of (answers1 "") te1 assertion_request).
Proof.
  split; [apply demo_te_bundled|].
  split; [apply run_of_exec; vm_compute; reflexivity|]. split; [vm_compute; tauto|].
  split; [apply run_of_exec; vm_compute; reflexivity|vm_compute; tauto].
Qed.

(** A JWT library that knows one assertion, "h.c.s", with the given claims. *)
Definition knowing (claims : jmap) : jwtlib :=
  JwtLib (fun raw => if raw =s? "h.c.s"
                     then PToken (JToken [("alg", JStr "RS256"); ("kid", JStr "key1")] claims)
                     else PMalformed)
         (fun now _ => CFlags (2000 <? now)%Z false false)
         (fun raw k => raw =s? "h.c.s") (fun _ => true)
         (fun alg kid cs k => Some "signed.id.token").
Definition te_of (J : jwtlib) : token_endpoint :=
  TokenEndpoint "goidc"
    [("client_credentials", client_credentials); (TypeJWT, jwt_grant J)] None FromHeader true.
Lemma te_of_bundled J : only_bundled J (te_of J).
Proof. intros gt h [H|[H|[]]]; injection H as <- <-; constructor. Qed.

(* An assertion that is not addressed to this server is refused, but its jti has
   been recorded before: whoever holds it can burn it, and the client's own use
   of the same jti is then refused as a replay. *)
Theorem C59_refused_leave_no_record_refuted :
  exists J te r tr cid jti iat exp,
    only_bundled J te /\ exec (token_handler J te r) tr (Done tt) /\
    In (Ev (ORecord cid jti iat exp) None) tr /\ statuses tr = [400%Z] /\
    (forall e, In e tr -> grant_op (ev_op e) = false).
Proof.
  set (J := knowing [("sub", JStr "client1"); ("aud", JStr "https://other.example"); ("exp", JFloat 2000);
                     ("iat", JFloat 1000); ("jti", JStr "jti1")]).
  exists J, (te_of J), assertion_request.
  exists (trace_of (answers1 "") (token_handler J (te_of J) assertion_request)), "client1", "jti1", 1000%Z, 2000%Z.
  split; [apply te_of_bundled|]. split; [apply demo_run; vm_compute; reflexivity|].
  split; [vm_compute; tauto|]. split; [vm_compute; reflexivity|].
  apply Forall_forall. vm_compute. repeat constructor.
Qed.
Print Assumptions C59_refused_leave_no_record_refuted.

(** ** C60 The issuer of an assertion is the client (RFC 7523, section 3). *)

(* Violated in both places that take assertions: 'iss' is never read. *)
Theorem C60_client_assertion_refuted :
  exists J te r tr c t iss,
    only_bundled J te /\ exec (token_handler J te r) tr (Done tt) /\ In 200%Z (statuses tr) /\
    presented_assertion te r (form_value r "client_assertion") /\
    (exists cid rest, tr = Ev (OFindClient cid) (Some c, None) :: rest) /\
    jl_parse J (form_value r "client_assertion") = PToken t /\
    jstr "iss" (jt_claims t) = Some iss /\ iss <> c_id c.
Proof.
  set (J := knowing [("iss", JStr "mallory"); ("sub", JStr "client1"); ("aud", JStr "https://op.example");
                     ("exp", JFloat 2000); ("iat", JFloat 1000); ("jti", JStr "jti1")]).
  exists J, (te_of J), assertion_request.
  exists (trace_of (answers1 "") (token_handler J (te_of J) assertion_request)), client1.
  eexists _, "mallory".
  split; [apply te_of_bundled|]. split; [apply demo_run; vm_compute; reflexivity|].
  split; [vm_compute; tauto|]. split.
  - split; [reflexivity|]. split; [|split; [reflexivity|split; [vm_compute; discriminate|reflexivity]]].
    intros cid sec b HP. apply presented_find in HP. vm_compute in HP. discriminate.
  - split; [eexists _, _; vm_compute; reflexivity|]. split; [vm_compute; reflexivity|].
    split; [vm_compute; reflexivity|vm_compute; discriminate].
Qed.
Print Assumptions C60_client_assertion_refuted.

Theorem C60_jwt_grant_refuted :
  exists J te r tr c t iss,
    only_bundled J te /\ exec (token_handler J te r) tr (Done tt) /\ In 200%Z (statuses tr) /\
    registered te (form_value r "grant_type") (jwt_grant J) /\
    (exists cid rest, tr = Ev (OFindClient cid) (Some c, None) :: rest) /\
    jl_parse J (form_value r "assertion") = PToken t /\
    jstr "iss" (jt_claims t) = Some iss /\ iss <> c_id c.
Proof.
  set (J := knowing [("iss", JStr "mallory"); ("sub", JStr "alice"); ("aud", JStr "https://op.example");
                     ("exp", JFloat 2000); ("iat", JFloat 1000); ("jti", JStr "jti1")]).
  exists J, (te_of J), jwt_request.
  exists (trace_of (answers1 "") (token_handler J (te_of J) jwt_request)), client1.
  eexists _, "mallory".
  split; [apply te_of_bundled|]. split; [apply demo_run; vm_compute; reflexivity|].
  split; [vm_compute; tauto|]. split; [apply find_handler_some; reflexivity|].
  split; [eexists _, _; vm_compute; reflexivity|]. split; [vm_compute; reflexivity|].
  split; [vm_compute; reflexivity|vm_compute; discriminate].
Qed.
Print Assumptions C60_jwt_grant_refuted.

(** ** C61 The grants are offered under their registered names. *)

(* The grants as they are shipped: each with its own name. *)
Definition shipped (J : jwtlib) : list (string * handler) :=
  [(TypeAuthorizationCode, authorization_code J); (TypeRefreshToken, refresh_token);
   (TypePassword, password_grant); (TypeClientCredentials, client_credentials); (TypeJWT, jwt_grant J)].

(* What holds: four of the five.  An endpoint that supports shipped grants, in any
   order, offers these four under the names of RFC 6749 exactly if it supports them. *)
Theorem C61_standard_names : forall J realm regs gt h,
  incl regs (shipped J) ->
  In (gt, h) [("authorization_code", authorization_code J); ("refresh_token", refresh_token);
              ("password", password_grant); ("client_credentials", client_credentials)] ->
  (registered (fold_left (fun te p => te_support te (fst p) (snd p)) regs (new_token_endpoint realm)) gt h
   <-> In (gt, h) regs).
Proof.
  intros J realm regs gt h HI HG. rewrite support_last. split.
  - intros (b & a & -> & _). apply in_or_app. right. left. reflexivity.
  - intros HIn.
    assert (HS : forall l, incl l (shipped J) -> In (gt, h) l ->
              exists b a, l = (b ++ (gt, h) :: a)%list /\ ~ In gt (map fst a)).
    { induction l as [|[g' h'] l IH]; intros Hl Hi; [destruct Hi|].
      destruct (in_dec string_dec gt (map fst l)) as [HL|HL].
      - apply in_map_iff in HL. destruct HL as ([g2 h2] & Hg & H2). simpl in Hg. subst g2.
        assert (HE : (gt, h2) = (gt, h)).
        { assert (H3 : In (gt, h2) (shipped J)) by (apply Hl; right; exact H2).
          simpl in HG, H3.
          repeat (destruct HG as [HG|HG]; [injection HG as <- <-;
            repeat (destruct H3 as [H3|H3]; [first [discriminate H3 | injection H3 as H3; rewrite H3; reflexivity
                                                   | injection H3; congruence]|]); destruct H3|]).
          destruct HG. }
        rewrite HE in H2. destruct IH as (b & a & -> & Ha); auto.
        + intros p Hp. apply Hl. right. exact Hp.
        + exists ((g', h') :: b), a. auto.
      - destruct Hi as [Hi|Hi].
        + injection Hi as -> ->. exists [], l. auto.
        + exfalso. apply HL. apply in_map_iff. exists (gt, h). auto. }
    apply HS; auto.
Qed.
Print Assumptions C61_standard_names.

(* Violated for JWT assertions: the handler registers itself under the name of the
   client assertion type.  A request with the grant type of RFC 7523 is refused as
   unsupported, whatever set of bundled grants is registered. *)
Theorem C61_jwt_bearer_refuted : forall J te r tr res,
  (forall gt h, In (gt, h) (te_handlers te) ->
     In gt [TypeAuthorizationCode; TypeRefreshToken; TypePassword; TypeClientCredentials; TypeJWT]) ->
  r_method r = "POST" -> form_value r "grant_type" = "urn:ietf:params:oauth:grant-type:jwt-bearer" ->
  exec (token_handler J te r) tr res ->
  res = Done tt /\ data_calls tr = [] /\
  exists e, oe_type e = EUnsupportedGrantType /\ error_answer te 400 e (http_ops tr).
Proof.
  intros J te r tr res HT HM HG He. eapply unsupported_grant; eauto.
  - rewrite HG. discriminate.
  - intros h (l & e & Hl & _). specialize (HT (form_value r "grant_type") h).
    rewrite Hl, in_app_iff in HT. specialize (HT (or_intror (or_introl eq_refl))). rewrite HG in HT.
    simpl in HT. repeat (destruct HT as [HT|HT]; [discriminate HT|]). exact HT.
Qed.
Print Assumptions C61_jwt_bearer_refuted.

Example C61_example :
  incl [(TypePassword, password_grant); (TypeAuthorizationCode, authorization_code demoJ)] (shipped demoJ) /\
  (forall gt h, In (gt, h) (te_handlers te1) ->
     In gt [TypeAuthorizationCode; TypeRefreshToken; TypePassword; TypeClientCredentials; TypeJWT]) /\
  statuses (run_of (answers1 "") te1
    (req [basic1] [] [("grant_type", "urn:ietf:params:oauth:grant-type:jwt-bearer"); ("assertion", "h.c.s")]))
  = [400%Z].
Proof.
  split; [intros p [<-|[<-|[]]]; simpl; tauto|]. split; [|vm_compute; reflexivity].
  intros gt h H. simpl in H. repeat (destruct H as [H|H]; [injection H as <- <-; simpl; tauto|]). destruct H.
Qed.

(** ** C62 Clients that follow RFC 7636 are protected by it, or refused. *)

(* Violated.  RFC 7636 clients send code_challenge with the authorization request
   and code_verifier with the token request: goidc reads neither. *)
Theorem C62_challenge_ignored_refuted : forall E pol r r',
  (forall k, k <> "code_challenge" -> k <> "code_challenge_method" -> form_value r k = form_value r' k) ->
  forall tr res, exec (handle_request E pol r) tr res <-> exec (handle_request E pol r') tr res.
Proof.
  intros E pol r r' HF. apply authz_depends. intros k Hk. apply HF; intros ->; simpl in Hk;
    repeat (destruct Hk as [Hk|Hk]; [discriminate Hk|]); exact Hk.
Qed.
Print Assumptions C62_challenge_ignored_refuted.

Theorem C62_verifier_ignored_refuted : forall J te r r',
  only_bundled J te -> r_method r = r_method r' ->
  (forall k, header_get r k = header_get r' k) ->
  (forall k, k <> "code_verifier" -> form_value r k = form_value r' k) ->
  (forall k, k <> "code_verifier" -> post_form_value r k = post_form_value r' k) ->
  forall tr res, exec (token_handler J te r) tr res <-> exec (token_handler J te r') tr res.
Proof.
  intros J te r r' HB HM HH HF HP. apply token_depends; auto. split; [auto|]. split; [|split].
  - intros k Hk. apply HF. intros ->. simpl in Hk.
    repeat (destruct Hk as [Hk|Hk]; [discriminate Hk|]). exact Hk.
  - intros k Hk. apply HP. intros ->. simpl in Hk.
    repeat (destruct Hk as [Hk|Hk]; [discriminate Hk|]). exact Hk.
  - auto.
Qed.
Print Assumptions C62_verifier_ignored_refuted.

(* A whole flow: the challenge of "right" is sent, the code is redeemed with the
   verifier "wrong". *)
Definition pkce_authz : request :=
  Request "GET" "/authorize" []
    [("client_id", "client1"); ("redirect_uri", "https://rp.example/cb"); ("response_type", "code");
     ("scope", "openid email"); ("prompt", "consent"); ("code_challenge_method", "S256");
     ("code_challenge", rfc4648_url (sha256 "right"))] [].
Definition pkce_token : request :=
  req [basic1] []
    [("grant_type", "authorization_code"); ("code", "code1"); ("redirect_uri", "https://rp.example/cb");
     ("code_verifier", "wrong")].
Definition pkce_env : env := Env demoJ (fun _ => true).
Definition pkce_stored : arequest :=
  ARequest (Some (Flow FAuthorizationCode false false)) "client1" "openid email"
    "https://rp.example/cb" "query" "" "" "" "page" "consent" 0 "" "" "".
Definition pkce_answers : answers :=
  let w := answers1 "" in
  Answers (w_client w) (w_session w) (w_active w) (w_info w) (w_access w) (w_refresh w)
    (w_token w) (w_user w) (w_disable w) (w_record w) (w_now w) (w_login w) (w_from_login w)
    (w_auth_time w) (w_login_user w) (w_code w) (w_subject w) (Some (Some pkce_stored)).

Theorem C62_whole_flow_refuted :
  exists E pol ar c q tr1 tr2 info s J te r sess tr3,
    (* the client sends the challenge of "right" *)
    form_value ar "code_challenge_method" = "S256" /\
    form_value ar "code_challenge" = rfc4648_url (sha256 "right") /\
    exec (handle_request E pol ar) tr1 (Done true) /\ In (Ev (OConsentScreen c q) (Some tt)) tr1 /\
    (* the user consents *)
    In (Ev OContinue (Some (Some q))) tr2 /\ exec (complete_request E pol) tr2 (Done true) /\
    In (Ev (OCreateSession info s) None) tr2 /\
    (* somebody redeems the code with another verifier *)
    In (Ev (OFindSession (s_code s)) (Some sess, None)) tr3 /\
    as_code sess = s_code s /\ as_redirect sess = s_redirect s /\ as_verifier sess = s_verifier s /\
    form_value r "code" = s_code s /\ form_value r "code_verifier" = "wrong" /\
    only_bundled J te /\ exec (token_handler J te r) tr3 (Done tt) /\ In 200%Z (statuses tr3).
Proof.
  exists pkce_env, default_policy, pkce_authz, client1, pkce_stored.
  exists (trace_of pkce_answers (handle_request pkce_env default_policy pkce_authz)).
  exists (trace_of pkce_answers (complete_request pkce_env default_policy)).
  exists (Some (AuthInfo 7 "client1" 42 "subject-7" "openid email" 1000 true)).
  exists (to_session pkce_stored "code1" 60 990).
  exists demoJ, te0, pkce_token, (session1 ""), (run_of (answers1 "") te0 pkce_token).
  split; [reflexivity|]. split; [vm_compute; reflexivity|].
  split; [apply demo_run; vm_compute; reflexivity|].
  split; [vm_compute; tauto|].
  split; [vm_compute; tauto|]. split; [apply demo_run; vm_compute; reflexivity|].
  split; [vm_compute; tauto|]. split; [vm_compute; tauto|].
  split; [reflexivity|]. split; [reflexivity|]. split; [reflexivity|].
  split; [vm_compute; reflexivity|]. split; [vm_compute; reflexivity|].
  split; [apply demo_te_bundled|].
  split; [apply run_of_exec; vm_compute; reflexivity|vm_compute; tauto].
Qed.
Print Assumptions C62_whole_flow_refuted.

(** ** C63 Endpoints see exactly the parameters they know. *)

Theorem C63_token_requests : forall J te r r',
  only_bundled J te -> same_token_request r r' ->
  forall tr res, exec (token_handler J te r) tr res <-> exec (token_handler J te r') tr res.
Proof. exact token_depends. Qed.
Print Assumptions C63_token_requests.

Theorem C63_authorization_requests : forall E pol r r',
  same_authz_request r r' ->
  forall tr res, exec (handle_request E pol r) tr res <-> exec (handle_request E pol r') tr res.
Proof. exact authz_depends. Qed.
Print Assumptions C63_authorization_requests.

(* The query string cannot override, and extra parameters cannot change, what the
   body of a request says. *)
Theorem C63_body_wins_at_the_token_endpoint : forall J te r r',
  only_bundled J te -> r_method r = "POST" -> requeried known_token_params r r' ->
  forall tr res, exec (token_handler J te r) tr res <-> exec (token_handler J te r') tr res.
Proof. exact token_query. Qed.
Print Assumptions C63_body_wins_at_the_token_endpoint.

Theorem C63_body_wins_at_the_authorization_endpoint : forall E pol r r',
  r_method r = "POST" -> requeried known_authz_params r r' ->
  forall tr res, exec (handle_request E pol r) tr res <-> exec (handle_request E pol r') tr res.
Proof. exact authz_query. Qed.
Print Assumptions C63_body_wins_at_the_authorization_endpoint.

Definition attacked_request : request :=
  req [basic1] [("code", "stolen"); ("redirect_uri", "https://evil.example/"); ("utm_source", "x")]
    [("grant_type", "authorization_code"); ("code", "code1"); ("redirect_uri", "https://rp.example/cb")].
Example C63_example : requeried known_token_params code_request attacked_request /\
  same_token_request code_request attacked_request /\ code_request <> attacked_request /\
  exec (token_handler demoJ te0 attacked_request) (run_of (answers1 "") te0 code_request) (Done tt) /\
  In 200%Z (statuses (run_of (answers1 "") te0 code_request)).
Proof.
  assert (HR : requeried known_token_params code_request attacked_request).
  { repeat split. intros k Hk. simpl in Hk.
    repeat (destruct Hk as [<-|Hk]; [first [right; vm_compute; reflexivity | left; simpl; tauto]|]). destruct Hk. }
  assert (HS : same_token_request code_request attacked_request).
  { apply requeried_token; [exact HR|reflexivity]. }
  split; [exact HR|]. split; [exact HS|]. split; [discriminate|]. split; [|vm_compute; tauto].
  apply (proj1 (C63_token_requests demoJ te0 _ _ (demo_te_bundled _ _) HS _ _)).
  apply run_of_exec. vm_compute. reflexivity.
Qed.

(* RFC 6749, 3.1 and 3.2: parameters must not be included more than once.
   Violated: the first one counts. *)
Theorem C63_duplicates_refuted :
  exists J te r tr,
    only_bundled J te /\ ~ NoDup (map fst (r_body r)) /\ exec (token_handler J te r) tr (Done tt) /\
    In 200%Z (statuses tr).
Proof.
  set (r := req [basic1] [] (r_body code_request ++ [("code", "code2")])%list).
  exists demoJ, te0, r, (run_of (answers1 "") te0 r). split; [apply demo_te_bundled|].
  split.
  { intros H. simpl in H. inversion H as [|x l H1 H2]; subst. inversion H2 as [|x l H3 H4]; subst.
    apply H3. simpl. tauto. }
  split; [apply run_of_exec; vm_compute; reflexivity|vm_compute; tauto].
Qed.
Print Assumptions C63_duplicates_refuted.
