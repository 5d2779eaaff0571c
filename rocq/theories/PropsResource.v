(** * Properties of the resource protector.

    [exec (validate rp r) tr res]: protector [rp], given request [r], performs the
    operations of [tr] (each with the answer it got) and ends with [res], a pair
    of Go's result and the request as the caller finds it afterwards.  The answers
    are arbitrary.  The vocabulary is in Spec.v and ResourceSpec.v. *)
From Coq Require Import Lia.
From Verif Require Import GoStr Codec Utils Core OAuthError Grants TokenEndpoint ResourceProtector Spec TokenSpec
  ResourceSpec TokenFacts TokenMore Hoare GrantFacts ResourceFacts Demo.

(** ** Concrete protectors and requests *)
Definition rp0 : protector := Protector "goidc" None FromHeader.
Definition rp_body : protector := Protector "goidc" None FromHeaderAndPostBody.
Definition api_request (headers query body : kvs) : request := Request "GET" "/api" headers query body.
(** The client tries to pass itself off as user 1. *)
Definition forged : request :=
  api_request [("Authorization", "bEArer access1"); ("X-Oauth-User-Id", "1"); ("Accept", "*/*");
               ("X-Oauth-Scope", "admin"); ("X-Oauth-User-Id", "2")] [] [].

(** ** C24 Protected resources are only served for live tokens. *)

Theorem C24_served_only_for_live_tokens : forall rp r tr r',
  exec (validate rp r) tr (Done (true, r')) ->
  exists t tok now info,
    token_from rp r t /\ access_live tok now /\ tr = live_calls t tok now info /\
    identified r r' info /\ http_ops tr = [].
Proof. exact accepted_identified. Qed.
Print Assumptions C24_served_only_for_live_tokens.

(* What the handler behind the protector reads, in any spelling of the name. *)
Theorem C24_headers_cannot_be_forged : forall rp r tr r' k,
  exec (validate rp r) tr (Done (true, r')) ->
  exists t tok now info, tr = live_calls t tok now info /\
  (canon k = "X-Oauth-User-Id" -> header_get r' k = itoa (ai_user info)) /\
  (canon k = "X-Oauth-Client-Id" -> header_get r' k = ai_client info) /\
  (canon k = "X-Oauth-Scope" -> header_get r' k = ai_scope info) /\
  (~ In (canon k) ["X-Oauth-User-Id"; "X-Oauth-Client-Id"; "X-Oauth-Scope"] ->
   header_get r' k = header_get r k).
Proof.
  intros rp r tr r' k H. apply accepted_identified in H.
  destruct H as (t & tok & now & info & _ & _ & -> & H & _). exists t, tok, now, info.
  split; [reflexivity|]. apply identified_get. exact H.
Qed.
Print Assumptions C24_headers_cannot_be_forged.

Theorem C24_live_tokens_are_served : forall rp r t tok now info,
  token_from rp r t -> access_live tok now ->
  exists r', exec (validate rp r) (live_calls t tok now info) (Done (true, r')).
Proof. intros. eexists. apply validate_complete; assumption. Qed.
Print Assumptions C24_live_tokens_are_served.

Example C24_example :
  exec (validate rp0 forged) (trace_of (answers1 "") (validate rp0 forged))
    (outcome_of (answers1 "") (validate rp0 forged)) /\
  exists r', outcome_of (answers1 "") (validate rp0 forged) = Done (true, r') /\
    header_get r' "x-oauth-user-id" = "42" /\ header_get r' "X-OAUTH-SCOPE" = "openid offline_access" /\
    header_get r' "accept" = "*/*".
Proof. split; [apply demo_exec|]. eexists. split; [vm_compute; reflexivity|]. vm_compute. auto. Qed.

(** ** C25 A refused resource request is answered exactly once. *)

Theorem C25_refusals : forall rp r tr r',
  exec (validate rp r) tr (Done (false, r')) -> r' = r /\ resource_refusal rp r tr.
Proof. exact refused. Qed.
Print Assumptions C25_refusals.

Theorem C25_refused_once : forall rp r m tr r',
  NoDup (map fst m) ->
  exec (validate rp r) tr (Done (false, r')) \/ exec (validate_with_scopes rp r m) tr (Done (false, r')) ->
  refused_once tr /\ only_reads tr.
Proof.
  intros rp r m tr r' HN [H|H].
  - split; [|eapply validate_reads; eauto]. apply refused in H. destruct H as [_ H].
    eapply refusal_once; eauto.
  - split; [|eapply scopes_reads; eauto]. eapply refused_scopes_once; eauto.
Qed.
Print Assumptions C25_refused_once.

Theorem C25_only_reads : forall rp r m tr res,
  exec (validate rp r) tr res \/ exec (validate_with_scopes rp r m) tr res -> only_reads tr.
Proof. intros rp r m tr res [H|H]; [eapply validate_reads|eapply scopes_reads]; eauto. Qed.
Print Assumptions C25_only_reads.

Definition late : answers :=
  let w := answers1 "" in
  Answers (w_client w) (w_session w) (w_active w) (w_info w) (w_access w) (w_refresh w) (w_token w)
    (w_user w) (w_disable w) (w_record w) 4601 (w_login w) (w_from_login w) (w_auth_time w)
    (w_login_user w) (w_code w) (w_subject w) (w_continue w).

Example C25_example :
  exec (validate rp0 forged) (trace_of late (validate rp0 forged)) (Done (false, forged)) /\
  http_ops (trace_of late (validate rp0 forged)) =
    [OSetHeader "WWW-Authenticate"
       "Bearer realm=""goidc"", error=""invalid_token"", error_description=""your access_token is expired""";
     OStatus 401].
Proof. split; [apply demo_run; vm_compute; reflexivity|vm_compute; reflexivity]. Qed.

(** ** C26 Per-path scope requirements are enforced. *)

Theorem C26_scopes_enforced : forall rp r m tr ok r',
  NoDup (map fst m) ->
  exec (validate_with_scopes rp r m) tr (Done (ok, r')) ->
  if ok then
    exists t tok now info,
      token_from rp r t /\ access_live tok now /\ tr = live_calls t tok now info /\ identified r r' info /\
      forall scopes s, required m (r_path r) scopes -> In s scopes -> has_word (ai_scope info) s
  else (r' = r /\ resource_refusal rp r tr) \/ exists s, scope_refusal rp m r tr s.
Proof.
  intros rp r m tr ok r' HN H. pose proof (wp_exec _ _ _ _ _ (scopes_wp rp r m HN) H) as HP.
  simpl in HP. destruct ok; [|exact HP].
  destruct HP as (t & tok & now & info & H1 & H2 & H3 & -> & H4). exists t, tok, now, info.
  repeat (split; [auto; apply identify_spec|]). exact H4.
Qed.
Print Assumptions C26_scopes_enforced.

Theorem C26_sufficient_scopes_are_served : forall rp r m t tok now info,
  NoDup (map fst m) -> token_from rp r t -> access_live tok now ->
  (forall scopes s, required m (r_path r) scopes -> In s scopes -> has_word (ai_scope info) s) ->
  exists r', exec (validate_with_scopes rp r m) (live_calls t tok now info) (Done (true, r')).
Proof. intros. eexists. apply scopes_complete; eassumption. Qed.
Print Assumptions C26_sufficient_scopes_are_served.

Theorem C26_insufficient_scope_is_403 : forall rp m r tr s,
  scope_refusal rp m r tr s -> exists v, http_ops tr = [OSetHeader "WWW-Authenticate" v; OStatus 403].
Proof. exact scope_refusal_once. Qed.
Print Assumptions C26_insufficient_scope_is_403.

Definition api_scopes : scope_map :=
  [("/other", ["admin"]); ("/api", ["openid"; "email"; "phone"])].
Example C26_example :
  NoDup (map fst api_scopes) /\
  exec (validate_with_scopes rp0 forged api_scopes) (trace_of (answers1 "") (validate_with_scopes rp0 forged api_scopes))
    (outcome_of (answers1 "") (validate_with_scopes rp0 forged api_scopes)) /\
  http_ops (trace_of (answers1 "") (validate_with_scopes rp0 forged api_scopes)) =
    [OSetHeader "WWW-Authenticate"
       "Bearer realm=""goidc"", error=""insufficient_scope"", error_description=""this endpoint requires \""email\"" scope, but the access_token was't issued for.""";
     OStatus 403] /\
  exists r', outcome_of (answers1 "") (validate_with_scopes rp0 forged [("/api", ["openid"])]) = Done (true, r').
Proof.
  split; [repeat constructor; simpl; intuition discriminate|].
  split; [apply demo_exec|]. split; [vm_compute; reflexivity|]. eexists. vm_compute. reflexivity.
Qed.

(** ** C27 Access tokens are taken from every accepted place. *)

(* The token looked up is one the request carries in a place [token_from] lists;
   with FromHeader only the header counts. *)
Theorem C27_lookup_uses_presented_token : forall rp r tr res t a,
  exec (validate rp r) tr res -> In (Ev (OFindByAccess t) a) tr ->
  token_from rp r t /\ (rp_accept rp = FromHeader -> bearer_header r t).
Proof. exact lookup_presented. Qed.
Print Assumptions C27_lookup_uses_presented_token.

(* The claim is false: without an Authorization header the form is never looked
   at, whatever the configuration. *)
Theorem C27_form_tokens_refuted : forall rp r tr res,
  header_get r "Authorization" = "" -> exec (validate rp r) tr res ->
  res = Done (false, r) /\ data_calls tr = [] /\ In 400%Z (statuses tr).
Proof. exact no_header_refused. Qed.
Print Assumptions C27_form_tokens_refuted.

Definition form_token : request := api_request [] [] [("access_token", "access1")].
Definition empty_bearer : request := api_request [("Authorization", "Bearer ")] [] [("access_token", "access1")].
Example C27_example :
  rp_accept rp_body = FromHeaderAndPostBody /\
  post_form_value form_token "access_token" = "" /\
  form_value form_token "access_token" = "" /\
  let post_req := Request "POST" "/api" [] [] [("access_token", "access1")] in
  post_form_value post_req "access_token" = "access1" /\ header_get post_req "Authorization" = "" /\
  outcome_of (answers1 "") (validate rp_body post_req) = Done (false, post_req) /\
  let empty := Request "POST" "/api" [("Authorization", "Bearer ")] [] [("access_token", "access1")] in
  token_from rp_body empty "access1" /\
  exists r', outcome_of (answers1 "") (validate rp_body empty) = Done (true, r').
Proof.
  split; [reflexivity|]. split; [reflexivity|]. split; [reflexivity|]. cbv zeta.
  split; [reflexivity|]. split; [reflexivity|]. split; [vm_compute; reflexivity|].
  split; [|eexists; vm_compute; reflexivity].
  apply (token_from_some rp_body). vm_compute. discriminate.
Qed.

(** ** C28 A data layer answering nil never crashes the resource protector. *)

(* It panics exactly when FindActiveAuthInfoById answers (nil, nil) for a live token. *)
Theorem C28_panics_exactly : forall rp r tr,
  exec (validate rp r) tr Panicked <->
  exists t tok now,
    token_from rp r t /\ access_live tok now /\
    tr = [Ev (OFindByAccess t) (Some tok, None); Ev ONow now;
          Ev (OFindActiveInfo (ot_auth_id tok)) (None, None)].
Proof. exact panics_exactly. Qed.
Print Assumptions C28_panics_exactly.

Definition nil_info : answers :=
  let w := answers1 "" in
  Answers (w_client w) (w_session w) (fun _ => (None, None)) (w_info w) (w_access w) (w_refresh w) (w_token w)
    (w_user w) (w_disable w) (w_record w) (w_now w) (w_login w) (w_from_login w) (w_auth_time w)
    (w_login_user w) (w_code w) (w_subject w) (w_continue w).

Theorem C28_never_crashes_refuted :
  exists rp r tr, exec (validate rp r) tr Panicked.
Proof.
  exists rp0, forged, (trace_of nil_info (validate rp0 forged)). apply demo_run. vm_compute. reflexivity.
Qed.
Print Assumptions C28_never_crashes_refuted.

(** ** C29 Token expiry is exact for all representable times. *)

Theorem C29_access_expiry : forall rp r t tok now info,
  token_from rp r t ->
  (0 <= ot_refreshed tok < two63)%Z -> (0 <= ot_access_expires tok < two63)%Z -> (0 <= now)%Z ->
  ((exists r', exec (validate rp r) (live_calls t tok now info) (Done (true, r'))) <->
   (now <= ot_refreshed tok + ot_access_expires tok /\
    ot_refreshed tok + ot_access_expires tok < two63)%Z).
Proof. exact access_expiry. Qed.
Print Assumptions C29_access_expiry.

Theorem C29_refresh_expiry : forall r c now old info tok,
  form_value r "refresh_token" <> "" -> ai_client info = c_id c -> has_word (ai_scope info) "offline_access" ->
  (0 <= ot_created old < two63)%Z -> (0 <= ot_refresh_expires old < two63)%Z -> (0 <= now)%Z ->
  ((exists rs, exec (refresh_token r c now)
      (refresh_found r old info ++ [Ev (ORefresh info old) (Some tok, None)])%list (Done (inl rs))) <->
   (now <= ot_created old + ot_refresh_expires old /\ ot_created old + ot_refresh_expires old < two63)%Z).
Proof. exact refresh_expiry. Qed.
Print Assumptions C29_refresh_expiry.

Example C29_example :
  token_from rp0 forged "access1" /\ access_live token1 4600 /\ ~ access_live token1 4601 /\
  (* a lifetime of 2^63 - 1 seconds: never accepted *)
  ~ access_live (OAuthToken 7 "a" (two63 - 1) 1000 "r" 86400 1000) 0.
Proof.
  split; [apply (token_from_some rp0 forged); vm_compute; discriminate|].
  unfold access_live. vm_compute. repeat split; intro H; try discriminate H; apply H; reflexivity.
Qed.
