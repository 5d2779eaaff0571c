(** * Properties of the token endpoint.

    [exec (token_handler J te r) tr res]: the endpoint [te], given request [r],
    performs the operations of [tr] (each with the answer it got) and ends with
    [res].  The answers are arbitrary, so are the JWT library [J] and, unless
    [only_bundled] is assumed, the grant handlers. The vocabulary is in Spec.v
    and TokenSpec.v.  Every theorem is followed by the axioms it rests on and by
    a concrete case that meets its hypotheses. *)
From Verif Require Import GoStr Codec Sha Utils Core OAuthError Assertion Grants TokenEndpoint Spec TokenSpec
  TokenFacts TokenProofs LogFacts Demo TokenComplete TokenMore.

(** ** C01 No token without client authentication. *)

Theorem C01_no_token_without_authentication : forall J te r tr res,
  exec (token_handler J te r) tr res ->
  forall t1 o a t2, tr = (t1 ++ Ev o a :: t2)%list -> grant_op o = true \/ o = OStatus 200 ->
  exists c ta rest, authenticated J te r c ta /\ t1 = (ta ++ rest)%list.
Proof. exact needs_authentication. Qed.
Print Assumptions C01_no_token_without_authentication.

Example C01_example :
  exec (token_handler demoJ te0 code_request) (run_of (answers1 "") te0 code_request) (Done tt) /\
  (exists t1 o a t2, run_of (answers1 "") te0 code_request = (t1 ++ Ev o a :: t2)%list /\ grant_op o = true) /\
  (exists t1 a t2, run_of (answers1 "") te0 code_request = (t1 ++ Ev (OStatus 200) a :: t2)%list).
Proof.
  split; [apply run_of_exec; vm_compute; reflexivity|]. split.
  - apply (has_event grant_op). vm_compute. reflexivity.
  - apply status_event. vm_compute. auto.
Qed.

(** ** C02 Only POST is served. *)

Theorem C02_only_post : forall J te r tr res,
  r_method r <> "POST" -> exec (token_handler J te r) tr res ->
  res = Done tt /\ data_calls tr = [] /\ http_ops tr = [OStatus 405].
Proof. exact only_post. Qed.
Print Assumptions C02_only_post.

Example C02_example : r_method (Request "GET" "/token" [basic1] [] []) <> "POST" /\
  exists tr, exec (token_handler demoJ te0 (Request "post" "/token" [basic1] [] [])) tr (Done tt).
Proof. split; [discriminate|]. eexists. apply (run_of_exec (answers1 "")). vm_compute. reflexivity. Qed.

(** ** C03 One complete, uncacheable answer per request. *)

(* [success_answer] and [error_answer] (TokenSpec.v) spell out all writes to the
   response: headers, then one status line, then one body.  The only runs that do
   not answer are the panics of C19. *)
Theorem C03_one_answer : forall J te r tr res,
  only_bundled J te -> r_method r = "POST" -> exec (token_handler J te r) tr res ->
  match res with
  | Done _ =>
      (exists rs, http_ops tr = success_answer rs) \/
      (exists st e, error_answer te st e (http_ops tr) /\ (400 <= st <= 500)%Z /\
         (forall ev, In ev tr -> data_failure ev = Some Refused -> (st < 500)%Z) /\
         (forall ev, In ev tr -> data_failure ev = Some Broken -> st = 500%Z /\ oe_type e = EServerError))
  | Panicked => tr = [] /\ te_accept_assertion te = true /\
      jl_parse J (form_value r "client_assertion") = PMalformed
  end.
Proof. exact token_answers. Qed.
Print Assumptions C03_one_answer.

Example C03_example : only_bundled demoJ te0 /\
  http_ops (run_of (answers1 "") te0 code_request)
  = [OSetHeader "Cache-Control" "no-store"; OSetHeader "Pragma" "no-cache";
     OSetHeader "Content-Type" "application/json; charset=UTF-8"; OStatus 200;
     OBody (response_json (Response "access1" 3600 "refresh1" "openid offline_access" "signed.id.token"))] /\
  http_ops (run_of (answers1 "") te0 (req [] [] [("grant_type", "password")]))
  = OSetHeader "WWW-Authenticate" ("Basic realm=" ++ String dquote ("goidc" ++ String dquote ""))
    :: [OSetHeader "Cache-Control" "no-store"; OSetHeader "Pragma" "no-cache";
        OSetHeader "Content-Type" "application/json; charset=UTF-8"; OStatus 401;
        OBody (oerr_json (OErr EInvalidClient "" ""))].
Proof. split; [apply demo_te_bundled|]. split; vm_compute; reflexivity. Qed.

(** ** C04 Clients only use grant types they are allowed to use. *)

(* Authentication by secret. *)
Theorem C04_grant_type_allowed_for_secrets : forall J te r tr res cid sec b,
  presented te r cid sec b -> exec (token_handler J te r) tr res -> In 200%Z (statuses tr) ->
  exists c rest, tr = Ev (OFindClient cid) (Some c, None) :: rest /\
    c_match_secret c sec = true /\ c_can_grant c (form_value r "grant_type") = true.
Proof. exact success_allowed. Qed.
Print Assumptions C04_grant_type_allowed_for_secrets.

Example C04_example : presented te0 client_request "client1" "secret1" true /\
  exec (token_handler demoJ te0 client_request) (run_of (answers1 "") te0 client_request) (Done tt) /\
  In 200%Z (statuses (run_of (answers1 "") te0 client_request)).
Proof.
  split; [constructor; vm_compute; reflexivity|].
  split; [apply run_of_exec; vm_compute; reflexivity|vm_compute; auto].
Qed.

(* Authentication by assertion: violated, CanUseGrantType is never asked. *)
Theorem C04_assertions_refuted :
  exists J te r tr c,
    only_bundled J te /\ exec (token_handler J te r) tr (Done tt) /\ In 200%Z (statuses tr) /\
    (exists cid rest, tr = Ev (OFindClient cid) (Some c, None) :: rest) /\
    c_can_grant c (form_value r "grant_type") = false.
Proof. exact assertion_skips_grant_type. Qed.
Print Assumptions C04_assertions_refuted.

(** ** C05 Grant dispatch obeys Support(). *)

Theorem C05_unsupported : forall J te r tr res,
  r_method r = "POST" -> form_value r "grant_type" <> "" ->
  (forall h, ~ registered te (form_value r "grant_type") h) ->
  exec (token_handler J te r) tr res ->
  res = Done tt /\ data_calls tr = [] /\
  exists e, oe_type e = EUnsupportedGrantType /\ error_answer te 400 e (http_ops tr).
Proof. exact unsupported_grant. Qed.
Print Assumptions C05_unsupported.

Theorem C05_empty : forall J te r tr res,
  r_method r = "POST" -> form_value r "grant_type" = "" ->
  exec (token_handler J te r) tr res ->
  res = Done tt /\ data_calls tr = [] /\
  exists e, oe_type e = EInvalidRequest /\ error_answer te 400 e (http_ops tr).
Proof. exact empty_grant. Qed.
Print Assumptions C05_empty.

(* The registration in force is the last one. *)
Theorem C05_last_registration : forall realm regs gt h,
  registered (fold_left (fun te p => te_support te (fst p) (snd p)) regs (new_token_endpoint realm)) gt h
  <-> exists before after, regs = (before ++ (gt, h) :: after)%list /\ ~ In gt (map fst after).
Proof. exact support_last. Qed.
Print Assumptions C05_last_registration.

(* Whatever is done on behalf of a grant is done by the registered handler, run
   for the authenticated client at the time read from the clock. *)
Theorem C05_registered_handler_runs : forall J te r tr res t1 o a t2,
  exec (token_handler J te r) tr res -> tr = (t1 ++ Ev o a :: t2)%list -> grant_op o = true ->
  exists h c now th x t t',
    registered te (form_value r "grant_type") h /\ serving J te r t1 c now t /\
    exec (h r c now) th x /\ th = (t ++ Ev o a :: t')%list.
Proof. exact granted_event. Qed.
Print Assumptions C05_registered_handler_runs.

(* And a success of that handler is the success of the endpoint. *)
Theorem C05_success_is_reported : forall J te r h cid sec b c now th rs,
  r_method r = "POST" -> form_value r "grant_type" <> "" ->
  registered te (form_value r "grant_type") h ->
  presented te r cid sec b -> c_match_secret c sec = true ->
  c_can_grant c (form_value r "grant_type") = true ->
  exec (h r c now) th (Done (inl rs)) ->
  exists l, http_ops l = success_answer rs /\ calls l = [] /\
    exec (token_handler J te r)
      (Ev (OFindClient cid) (Some c, None) :: Ev ONow now :: th ++ l)%list (Done tt).
Proof. exact endpoint_complete. Qed.
Print Assumptions C05_success_is_reported.

Example C05_example :
  registered te0 "password" password_grant /\ (forall h, ~ registered te0 "Password" h) /\
  registered (te_support te0 "password" refresh_token) "password" refresh_token /\
  ~ In 200%Z (statuses (run_of (answers1 "") (te_support te0 "password" refresh_token) password_request)).
Proof.
  split; [apply demo_registered|]. split.
  - intros h (l & e & H & _). assert (HI : In "Password" (map fst (te_handlers te0))).
    { rewrite H, map_app, in_app_iff. simpl. auto. }
    simpl in HI. intuition discriminate.
  - split; [exists [], (te_handlers te0); split; [reflexivity|intros []]|].
    vm_compute. intuition discriminate.
Qed.

(** ** C06 Client credentials are taken only from accepted places. *)

(* FromHeader: without Basic credentials only an accepted assertion counts, and
   if assertions are off the data layer is not even asked. *)
Theorem C06_header_only : forall J te r tr res,
  te_accept te = FromHeader -> basic_auth r = None -> exec (token_handler J te r) tr res ->
  (te_accept_assertion te = false -> data_calls tr = [] /\ ~ In 200%Z (statuses tr)) /\
  (forall t1 o a t2, tr = (t1 ++ Ev o a :: t2)%list -> grant_op o = true \/ o = OStatus 200 ->
   exists c ca t sub evs rest, presented_assertion te r ca /\ accepted J ca c t evs /\
     jstr "sub" (jt_claims t) = Some sub /\
     t1 = (Ev (OFindClient sub) (Some c, None) :: evs ++ rest)%list).
Proof. exact header_only. Qed.
Print Assumptions C06_header_only.

(* FromHeaderAndPostBody: the same when the secret is not in the body, whatever
   is in the query. *)
Theorem C06_not_from_query : forall J te r tr res,
  te_accept te = FromHeaderAndPostBody -> basic_auth r = None ->
  post_form_value r "client_secret" = "" -> exec (token_handler J te r) tr res ->
  (te_accept_assertion te = false -> data_calls tr = [] /\ ~ In 200%Z (statuses tr)) /\
  (forall t1 o a t2, tr = (t1 ++ Ev o a :: t2)%list -> grant_op o = true \/ o = OStatus 200 ->
   exists c ca t sub evs rest, presented_assertion te r ca /\ accepted J ca c t evs /\
     jstr "sub" (jt_claims t) = Some sub /\
     t1 = (Ev (OFindClient sub) (Some c, None) :: evs ++ rest)%list).
Proof. exact not_from_query. Qed.
Print Assumptions C06_not_from_query.

(* The Authorization header wins over everything else. *)
Theorem C06_header_wins : forall J te r tr res cid sec,
  basic_auth r = Some (cid, sec) -> exec (token_handler J te r) tr res ->
  forall t1 o a t2, tr = (t1 ++ Ev o a :: t2)%list -> grant_op o = true \/ o = OStatus 200 ->
  exists c rest, t1 = Ev (OFindClient cid) (Some c, None) :: rest /\
    c_match_secret c sec = true /\ c_can_grant c (form_value r "grant_type") = true.
Proof. exact header_wins. Qed.
Print Assumptions C06_header_wins.

Definition C06_form : kvs :=
  [("grant_type", "client_credentials"); ("client_id", "client1"); ("client_secret", "secret1")].
Example C06_example :
  basic_auth (req [] [] C06_form) = None /\
  ~ In 200%Z (statuses (run_of (answers1 "") te0 (req [] [] C06_form))) /\
  In 200%Z (statuses (run_of (answers1 "") (demo_te FromHeaderAndPostBody false) (req [] [] C06_form))) /\
  post_form_value (req [] C06_form []) "client_secret" = "" /\
  ~ In 200%Z (statuses (run_of (answers1 "") (demo_te FromHeaderAndPostBody false) (req [] C06_form []))) /\
  In 200%Z (statuses (run_of (answers1 "") (demo_te FromAll false) (req [] C06_form []))) /\
  basic_auth (req [basic1] [] [("client_id", "other"); ("client_secret", "x")]) = Some ("client1", "secret1").
Proof. vm_compute. intuition discriminate. Qed.

(** ** C07 Authorization-code exchange is sound. *)

Theorem C07_code_exchange_sound : forall J te r tr res,
  only_bundled J te -> registered te (form_value r "grant_type") (authorization_code J) ->
  exec (token_handler J te r) tr res -> In 200%Z (statuses tr) ->
  exists c now th rs, served J te r tr c now th rs /\ code_success J r c now (data_calls th) rs.
Proof. exact code_exchange_sound. Qed.
Print Assumptions C07_code_exchange_sound.

(* Conversely, when every check passes and the data layer answers, it succeeds. *)
Theorem C07_code_exchange_complete : forall J r c now sess info tok,
  code_checks r c sess info ->
  (as_verifier sess <> "" -> form_value r "code_challenge" <> "") ->
  ~ has_word (ai_scope info) "openid" ->
  exec (authorization_code J r c now)
    (found_calls r sess info ++
     [Ev (OCreateToken (Some info) true) (Some tok, None); Ev (ODisable sess) None])%list
    (Done (inl (Response (ot_access tok) (ot_access_expires tok) (ot_refresh tok) (ai_scope info) ""))).
Proof. exact code_exchange_complete. Qed.
Print Assumptions C07_code_exchange_complete.

Example C07_example :
  registered te0 (form_value code_request "grant_type") (authorization_code demoJ) /\
  exec (token_handler demoJ te0 code_request) (run_of (answers1 "") te0 code_request) (Done tt) /\
  In 200%Z (statuses (run_of (answers1 "") te0 code_request)) /\
  code_checks code_request client1 (session1 "") info1 /\
  In 200%Z (statuses (run_of (answers1 "verifier") te0 (pkce_request "plain" "verifier"))) /\
  ~ In 200%Z (statuses (run_of (answers1 "verifier") te0 (pkce_request "plain" "wrong"))) /\
  ~ In 200%Z (statuses (run_of (answers1 "verifier") te0 code_request)).
Proof.
  split; [apply (demo_registered FromHeader false)|].
  split; [apply run_of_exec; vm_compute; reflexivity|]. split; [vm_compute; auto|].
  split; [repeat split; try discriminate; left; reflexivity|].
  vm_compute. intuition discriminate.
Qed.

(** ** C08 A refused code exchange has no effect. *)

(* Whenever something is changed in the data layer, the code had named a session
   with an active authorization and every check had been passed. *)
Theorem C08_refused_exchange_changes_nothing : forall J te r tr res t1 o a t2,
  registered te (form_value r "grant_type") (authorization_code J) ->
  exec (token_handler J te r) tr res -> tr = (t1 ++ Ev o a :: t2)%list ->
  grant_op o = true -> is_update o = true ->
  exists c now th sess info rest,
    serving J te r t1 c now th /\ code_checks r c sess info /\
    data_calls th = (found_calls r sess info ++ rest)%list /\
    ((o = OCreateToken (Some info) true /\ rest = []) \/
     (o = ODisable sess /\ exists tok, rest = [Ev (OCreateToken (Some info) true) (Some tok, None)])).
Proof. exact code_exchange_guarded. Qed.
Print Assumptions C08_refused_exchange_changes_nothing.

Example C08_example :
  (exists t1 o a t2, run_of (answers1 "") te0 code_request = (t1 ++ Ev o a :: t2)%list /\
     (grant_op o && is_update o)%bool = true) /\
  existsb (fun e => is_update (ev_op e))
    (run_of (answers1 "verifier") te0 (pkce_request "plain" "wrong")) = false.
Proof.
  split; [|vm_compute; reflexivity].
  apply (has_event (fun o => grant_op o && is_update o)%bool). vm_compute. reflexivity.
Qed.

(** ** C13 PKCE protects a leaked authorization request: violated. *)

(* Whoever knows the code_verifier parameter of the authorization request (the
   session's verifier) can compute the parameters the token endpoint accepts. *)
Theorem C13_refuted :
  exists observer : string -> string * string,
  forall J r c now sess info tok,
    form_value r "redirect_uri" <> "" -> form_value r "code" <> "" ->
    ai_client info = c_id c -> as_redirect sess = form_value r "redirect_uri" ->
    as_verifier sess <> "" -> ~ has_word (ai_scope info) "openid" ->
    (form_value r "code_challenge_method", form_value r "code_challenge")
      = observer (as_verifier sess) ->
    exists tr rs, exec (authorization_code J r c now) tr (Done (inl rs)) /\ rs_access rs = ot_access tok.
Proof. exact pkce_from_leaked_request. Qed.
Print Assumptions C13_refuted.

Theorem C13_s256_refuted :
  forall J r c now sess info tok,
    form_value r "redirect_uri" <> "" -> form_value r "code" <> "" ->
    ai_client info = c_id c -> as_redirect sess = form_value r "redirect_uri" ->
    as_verifier sess <> "" -> ~ has_word (ai_scope info) "openid" ->
    form_value r "code_challenge_method" = "S256" ->
    form_value r "code_challenge" = rfc4648_url (sha256 (as_verifier sess)) ->
    exists tr rs, exec (authorization_code J r c now) tr (Done (inl rs)) /\ rs_access rs = ot_access tok.
Proof. exact pkce_s256_from_leaked_request. Qed.
Print Assumptions C13_s256_refuted.

Example C13_example :
  In 200%Z (statuses (run_of (answers1 "verifier") te0 (pkce_request "S256" (rfc4648_url (sha256 "verifier"))))).
Proof. vm_compute. auto. Qed.

(** ** C15 Refresh exchange is sound. *)

Theorem C15_refresh_sound : forall J te r tr res,
  only_bundled J te -> registered te (form_value r "grant_type") refresh_token ->
  exec (token_handler J te r) tr res -> In 200%Z (statuses tr) ->
  exists c now th rs, served J te r tr c now th rs /\ refresh_success r c now (data_calls th) rs.
Proof. exact refresh_sound. Qed.
Print Assumptions C15_refresh_sound.

Theorem C15_refresh_complete : forall r c now old info tok,
  refresh_checks r c now old info ->
  exec (refresh_token r c now)
    (refresh_found r old info ++ [Ev (ORefresh info old) (Some tok, None)])%list
    (Done (inl (Response (ot_access tok) (ot_access_expires tok) (ot_refresh tok) (ai_scope info) ""))).
Proof. exact refresh_complete. Qed.
Print Assumptions C15_refresh_complete.

Example C15_example :
  registered te0 (form_value refresh_request "grant_type") refresh_token /\
  exec (token_handler demoJ te0 refresh_request) (run_of (answers1 "") te0 refresh_request) (Done tt) /\
  In 200%Z (statuses (run_of (answers1 "") te0 refresh_request)) /\
  refresh_checks refresh_request client1 87400 token1 info1 /\
  ~ refresh_checks refresh_request client1 87401 token1 info1.
Proof.
  split; [apply (demo_registered FromHeader false)|].
  split; [apply run_of_exec; vm_compute; reflexivity|]. split; [vm_compute; auto|].
  split.
  - repeat split; try discriminate. exists ["openid"; "offline_access"].
    split; [|simpl; auto]. repeat split; try discriminate. repeat constructor; simpl; intuition discriminate.
  - intros (_ & H & _). vm_compute in H. auto.
Qed.

(** ** C16 A refused refresh has no effect. *)

Theorem C16_refused_refresh_changes_nothing : forall J te r tr res t1 o a t2,
  registered te (form_value r "grant_type") refresh_token ->
  exec (token_handler J te r) tr res -> tr = (t1 ++ Ev o a :: t2)%list ->
  grant_op o = true -> is_update o = true ->
  exists c now th old info,
    serving J te r t1 c now th /\ o = ORefresh info old /\ refresh_checks r c now old info /\
    data_calls th = refresh_found r old info.
Proof. exact refresh_guarded. Qed.
Print Assumptions C16_refused_refresh_changes_nothing.

Example C16_example :
  exists t1 o a t2, run_of (answers1 "") te0 refresh_request = (t1 ++ Ev o a :: t2)%list /\
    (grant_op o && is_update o)%bool = true.
Proof. apply (has_event (fun o => grant_op o && is_update o)%bool). vm_compute. reflexivity. Qed.

(** ** C17 Direct grants never exceed the client's scope. *)

(* [direct J r c h ident] pairs each of the three direct grants with the calls
   that identify the user. *)
Theorem C17_direct_grants_sound : forall J te r tr res h,
  only_bundled J te -> registered te (form_value r "grant_type") h ->
  exec (token_handler J te r) tr res -> In 200%Z (statuses tr) ->
  exists c now th rs, served J te r tr c now th rs /\
    (forall ident, direct J r c h ident -> direct_success r c ident (calls th) rs).
Proof. exact direct_sound. Qed.
Print Assumptions C17_direct_grants_sound.

Theorem C17_direct_grants_guarded : forall J te r tr res h t1 o a t2,
  registered te (form_value r "grant_type") h ->
  exec (token_handler J te r) tr res -> tr = (t1 ++ Ev o a :: t2)%list ->
  grant_op o = true -> is_update o = true ->
  exists c now th, serving J te r t1 c now th /\
    forall ident, direct J r c h ident ->
      direct_checks r c /\
      exists h0 uid, ident h0 uid /\
       ((o = OCreateInfo uid (c_id c) (form_value r "scope") /\ calls th = h0) \/
        (exists info, o = OCreateToken (Some info) true /\
           calls th = (h0 ++ [Ev (OCreateInfo uid (c_id c) (form_value r "scope")) (Some info, None)])%list)).
Proof. exact direct_guarded. Qed.
Print Assumptions C17_direct_grants_guarded.

Theorem C17_password_complete : forall r c now h uid info tok,
  password_ident r h uid -> direct_checks r c ->
  exec (password_grant r c now) (h ++ direct_calls r c uid info tok)%list
    (Done (inl (direct_response info tok))).
Proof. exact password_complete. Qed.
Print Assumptions C17_password_complete.

Theorem C17_client_credentials_complete : forall r c now h uid info tok,
  client_ident c h uid -> direct_checks r c ->
  exec (client_credentials r c now) (h ++ direct_calls r c uid info tok)%list
    (Done (inl (direct_response info tok))).
Proof. exact client_complete. Qed.
Print Assumptions C17_client_credentials_complete.

Example C17_example :
  registered te0 (form_value password_request "grant_type") password_grant /\
  registered te0 (form_value client_request "grant_type") client_credentials /\
  registered te0 (form_value jwt_request "grant_type") (jwt_grant demoJ) /\
  (forall r, In r [password_request; client_request; jwt_request] ->
     exec (token_handler demoJ te0 r) (run_of (answers1 "") te0 r) (Done tt) /\
     In 200%Z (statuses (run_of (answers1 "") te0 r))) /\
  direct_checks password_request client1 /\
  ~ In 200%Z (statuses (run_of (answers1 "") te0
      (req [basic1] [] [("grant_type", "client_credentials"); ("scope", "forbidden")]))).
Proof.
  split; [apply (demo_registered FromHeader false)|].
  split; [apply (demo_registered FromHeader false)|].
  split; [apply (demo_registered FromHeader false)|].
  split; [|split; [right; reflexivity|vm_compute; intuition discriminate]].
  intros r [<-|[<-|[<-|[]]]]; (split; [apply run_of_exec; vm_compute; reflexivity|vm_compute; auto]).
Qed.

(** ** C18 Accepted assertions are verified, current, recorded and addressed to us. *)

Theorem C18_client_assertion : forall J te r tr res ca,
  presented_assertion te r ca ->
  exec (token_handler J te r) tr res ->
  forall t1 o a t2, tr = (t1 ++ Ev o a :: t2)%list -> grant_op o = true \/ o = OStatus 200 ->
  exists c t sub evs rest, accepted J ca c t evs /\ jstr "sub" (jt_claims t) = Some sub /\
    t1 = (Ev (OFindClient sub) (Some c, None) :: evs ++ rest)%list.
Proof. exact client_assertion_sound. Qed.
Print Assumptions C18_client_assertion.

Theorem C18_jwt_grant : forall J te r tr res t1 o a t2,
  registered te (form_value r "grant_type") (jwt_grant J) ->
  exec (token_handler J te r) tr res -> tr = (t1 ++ Ev o a :: t2)%list -> grant_op o = true ->
  exists c now th t evs rest, serving J te r t1 c now th /\
    accepted J (form_value r "assertion") c t evs /\ calls th = (evs ++ rest)%list.
Proof. exact jwt_grant_sound. Qed.
Print Assumptions C18_jwt_grant.

Example C18_example :
  presented_assertion te1 assertion_request "h.c.s" /\
  exec (token_handler demoJ te1 assertion_request) (run_of (answers1 "") te1 assertion_request) (Done tt) /\
  In 200%Z (statuses (run_of (answers1 "") te1 assertion_request)) /\
  accepted demoJ "h.c.s" client1 assertion1
    [Ev OJwtNow 1010%Z; Ev (ORecord "client1" "jti1" 1000 2000) None; Ev OIssuer "https://op.example"].
Proof.
  split.
  { split; [reflexivity|]. split; [|repeat split; try discriminate].
    intros cid sec b HP. destruct HP; discriminate. }
  split; [apply run_of_exec; vm_compute; reflexivity|]. split; [vm_compute; auto|].
  exists 1010%Z, 2000%Z, "https://op.example". repeat split; try discriminate.
  exists (KRsaPub 1). split; reflexivity.
Qed.

(** ** C19 Malformed client assertions are answered, not crashed on: violated. *)

Theorem C19_refuted :
  exists J te r,
    only_bundled J te /\ r_method r = "POST" /\ te_handlers te <> [] /\
    (exists tr, exec (token_handler J te r) tr Panicked).
Proof. exact malformed_assertion_crashes. Qed.
Print Assumptions C19_refuted.

(* In fact every such request crashes, before anything is done or answered. *)
Theorem C19_every_malformed_assertion_crashes : forall J te r h ca,
  r_method r = "POST" -> form_value r "grant_type" <> "" ->
  registered te (form_value r "grant_type") h ->
  presented_assertion te r ca -> jl_parse J ca = PMalformed ->
  forall tr res, exec (token_handler J te r) tr res <-> tr = [] /\ res = Panicked.
Proof. exact malformed_panics. Qed.
Print Assumptions C19_every_malformed_assertion_crashes.
(* No other request does: C03_one_answer. *)

Example C19_example :
  presented_assertion te1
    (req [] [] [("grant_type", "client_credentials"); ("client_assertion", "x");
                ("client_assertion_type", ClientAssertionTypeJWT)]) "x" /\
  jl_parse demoJ "x" = PMalformed.
Proof.
  split; [|reflexivity]. split; [reflexivity|]. split; [|repeat split; try discriminate].
  intros cid sec b HP. destruct HP; discriminate.
Qed.

(** ** C20 Replayed assertions are refused. *)

Theorem C20_replay_refused : forall J te r tr res ev,
  only_bundled J te -> exec (token_handler J te r) tr res -> In ev tr ->
  (exists cid jti iat exp, ev_op ev = ORecord cid jti iat exp) -> data_failure ev <> None ->
  (forall e, In e tr -> grant_op (ev_op e) = false) /\ ~ In 200%Z (statuses tr).
Proof. exact replay_refused. Qed.
Print Assumptions C20_replay_refused.

Definition with_record (x : option err_type) (w : answers) : answers :=
  Answers (w_client w) (w_session w) (w_active w) (w_info w) (w_access w) (w_refresh w)
    (w_token w) (w_user w) (w_disable w) x (w_now w) (w_login w) (w_from_login w)
    (w_auth_time w) (w_login_user w) (w_code w) (w_subject w) (w_continue w).
Example C20_example :
  In (Ev (ORecord "client1" "jti1" 1000 2000) (Some ErrFailed))
     (run_of (with_record (Some ErrFailed) (answers1 "")) te1 assertion_request) /\
  In (Ev (ORecord "client1" "jti1" 1000 2000) (Some ErrFailed))
     (run_of (with_record (Some ErrFailed) (answers1 "")) te0 jwt_request).
Proof. vm_compute. auto 8. Qed.

(** ** C21 Data-layer failures never turn into success. *)

Theorem C21_failures_are_answered : forall J te r tr res ev f,
  only_bundled J te -> r_method r = "POST" -> exec (token_handler J te r) tr res ->
  In ev tr -> data_failure ev = Some f ->
  res = Done tt /\
  exists st e, error_answer te st e (http_ops tr) /\
    match f with
    | Refused => (400 <= st < 500)%Z
    | Broken => st = 500%Z /\ oe_type e = EServerError
    end.
Proof. exact data_failure_answer. Qed.
Print Assumptions C21_failures_are_answered.

Definition with_disable (x : option err_type) (w : answers) : answers :=
  Answers (w_client w) (w_session w) (w_active w) (w_info w) (w_access w) (w_refresh w)
    (w_token w) (w_user w) x (w_record w) (w_now w) (w_login w) (w_from_login w)
    (w_auth_time w) (w_login_user w) (w_code w) (w_subject w) (w_continue w).
Example C21_example :
  In (Ev (ODisable (session1 "")) (Some (ErrOther 9)))
     (run_of (with_disable (Some (ErrOther 9)) (answers1 "")) te0 code_request) /\
  data_failure (Ev (ODisable (session1 "")) (Some (ErrOther 9))) = Some Broken /\
  statuses (run_of (with_disable (Some (ErrOther 9)) (answers1 "")) te0 code_request) = [500%Z] /\
  statuses (run_of (with_disable (Some ErrFailed) (answers1 "")) te0 code_request) = [400%Z].
Proof. vm_compute. auto 12. Qed.

(** ** C22 ID tokens in code exchanges are bound to client, user, session and time. *)

Theorem C22_id_token_bound : forall J te r tr res,
  only_bundled J te -> registered te (form_value r "grant_type") (authorization_code J) ->
  exec (token_handler J te r) tr res -> In 200%Z (statuses tr) ->
  exists c now th rs sess info,
    served J te r tr c now th rs /\
    In (Ev (OFindSession (form_value r "code")) (Some sess, None)) th /\
    In (Ev (OFindActiveInfo (as_auth_id sess)) (Some info, None)) th /\
    ai_client info = c_id c /\
    (has_word (ai_scope info) "openid" ->
       exists iss cs, In (Ev OIssuer iss) th /\
         id_claims cs iss (c_id c) (ai_subject info) (as_nonce sess)
           (add64 now (as_idt_expires sess)) (as_auth_time sess) now None None /\
         signed_for J c cs (rs_id rs)) /\
    (~ has_word (ai_scope info) "openid" -> rs_id rs = "").
Proof. exact code_id_token_bound. Qed.
Print Assumptions C22_id_token_bound.

(* Hypotheses: C07_example, whose authorization has scope openid. *)
Example C22_example : has_word (ai_scope info1) "openid".
Proof.
  exists ["openid"; "offline_access"]. split; [|simpl; auto].
  repeat split; try discriminate. repeat constructor; simpl; intuition discriminate.
Qed.

(** ** C52 Client secrets never reach the logs. *)

(* Everything the endpoint or a bundled grant logs comes from one of these places. *)
Theorem C52_log_sources : forall J te r tr res, only_bundled J te ->
  exec (token_handler J te r) tr res ->
  forall t1 lv e attrs a t2 k v, tr = (t1 ++ Ev (OLog lv e attrs) a :: t2)%list -> In (k, v) attrs ->
  endpoint_log_source J te r t1 k v.
Proof. exact endpoint_log_whitelist. Qed.
Print Assumptions C52_log_sources.

(* And no log (or anything else the run does) depends on the secret, except
   through the answer of Client.MatchSecret. *)
Theorem C52_secret_independence : forall J te r r' cid sec sec' b tr res,
  only_bundled J te -> same_but_secret r r' ->
  presented te r cid sec b -> presented te r' cid sec' b ->
  exec (token_handler J te r) tr res ->
  (forall c, In (Ev (OFindClient cid) (Some c, None)) tr -> c_match_secret c sec = c_match_secret c sec') ->
  exec (token_handler J te r') tr res.
Proof. exact secret_independence. Qed.
Print Assumptions C52_secret_independence.

Example C52_example :
  logged (run_of (answers1 "") te0 code_request) <> [] /\
  let r := req [] [] C06_form in
  let r' := req [] [] [("grant_type", "client_credentials"); ("client_id", "client1");
                       ("client_secret", "another")] in
  same_but_secret r r' /\
  presented (demo_te FromHeaderAndPostBody false) r "client1" "secret1" false /\
  presented (demo_te FromHeaderAndPostBody false) r' "client1" "another" false.
Proof.
  split.
  - vm_compute. discriminate.
  - split.
    + split; [reflexivity|]. split; [|reflexivity]. intros k Hk.
      unfold form_value, C06_form, req, post_form, has_body. simpl.
      destruct (k =s? "grant_type"); auto. destruct (k =s? "client_id"); auto.
      destruct (k =s? "client_secret") eqn:E; auto. apply String.eqb_eq in E. congruence.
    + split; apply pr_post; vm_compute; try reflexivity; discriminate.
Qed.

(* User passwords: violated. *)
Theorem C52_passwords_refuted :
  exists J te r tr attrs,
    only_bundled J te /\ exec (token_handler J te r) tr (Done tt) /\
    In attrs (logged tr) /\ In ("password", form_value r "password") attrs /\
    form_value r "password" <> "".
Proof. exact password_logged. Qed.
Print Assumptions C52_passwords_refuted.

(** ** C54 Expired codes are refused: violated.  C07_code_exchange_complete shows
    that neither age nor lifetime of a session ever matters. *)
Theorem C54_refuted :
  exists J te r tr sess now,
    only_bundled J te /\ exec (token_handler J te r) tr (Done tt) /\ In 200%Z (statuses tr) /\
    In (Ev (OFindSession (form_value r "code")) (Some sess, None)) tr /\ In (Ev ONow now) tr /\
    (as_created sess + as_expires sess < now)%Z /\
    (0 <= as_created sess)%Z /\ (0 <= as_expires sess)%Z.
Proof. exact expired_code_accepted. Qed.
Print Assumptions C54_refuted.
