(** * What the token endpoint does, on every execution. *)
From Coq Require Import Lia.
From Verif Require Import WpTac Utils OAuthError IdToken Assertion Grants TokenEndpoint
  TokenSpec UtilsFacts GrantFacts.

Lemma find_client_credential_spec te r :
  match find_client_credential te r with
  | Some (cid, sec, b) => presented te r cid sec b
  | None => forall cid sec b, ~ presented te r cid sec b
  end.
Proof.
  unfold find_client_credential. destruct (basic_auth r) as [[cid sec]|] eqn:E; [constructor; auto|].
  destruct (te_accept te) eqn:EA.
  - intros cid sec b H. inversion H; congruence.
  - destruct (post_form_value r "client_id" =s? "") eqn:E1; simpl; sdestruct.
    { intros cid sec b H. inversion H; congruence. }
    destruct (post_form_value r "client_secret" =s? "") eqn:E2; simpl; sdestruct.
    { intros cid sec b H. inversion H; congruence. }
    apply pr_post; auto.
  - destruct (form_value r "client_id" =s? "") eqn:E1; simpl; sdestruct.
    { intros cid sec b H. inversion H; congruence. }
    destruct (form_value r "client_secret" =s? "") eqn:E2; simpl; sdestruct.
    { intros cid sec b H. inversion H; congruence. }
    apply pr_all; auto.
  - intros cid sec b H. inversion H; congruence.
Qed.

(** An operation that may be performed while a client is being authenticated. *)
Definition auth_op (o : op) : bool :=
  match o with
  | OFindClient _ | ORecord _ _ _ _ | OIssuer | OJwtNow | OLog _ _ _
  | OSetHeader _ _ | OStatus _ | OBody _ => true
  | _ => false
  end.

Definition refused (te : token_endpoint) (tr : list event) : Prop :=
  forallb auth_op (ops tr) = true /\
  (exists st e, error_answer te st e (http_ops tr) /\ (400 <= st <= 500)%Z /\
    (st = oerr_status (oe_type e) \/ (st = 401%Z /\ oe_type e = EInvalidClient)) /\
    (forall ev, In ev tr -> data_failure ev = Some Refused -> (st < 500)%Z) /\
    (forall ev, In ev tr -> data_failure ev = Some Broken -> st = 500%Z /\ oe_type e = EServerError)).

Lemma oerr_status_range t : (400 <= oerr_status t <= 500)%Z.
Proof. destruct t; simpl; lia. Qed.

Lemma with_uri_spec u e : error_uri u e (with_uri u e).
Proof.
  unfold error_uri, with_uri. destruct u as [f|]; auto.
  destruct (oe_uri e =s? "") eqn:E; sdestruct; simpl; auto 6.
Qed.

Lemma find_handler_some gt l h : find_handler gt l = Some h <->
  exists later earlier, l = (later ++ (gt, h) :: earlier)%list /\ ~ In gt (map fst later).
Proof.
  induction l as [|[n h'] l IH]; simpl.
  - split; [discriminate|]. intros ([|? ?] & ? & H & _); discriminate.
  - destruct (gt =s? n) eqn:E; sdestruct.
    + split.
      * intros H. injection H as ->. subst n. exists [], l. split; [reflexivity|intros []].
      * intros ([|[n' h''] later] & earlier & H & HN); simpl in H; injection H as H1 H2; subst.
        -- congruence.
        -- exfalso. apply HN. simpl. auto.
    + rewrite IH. split.
      * intros (later & earlier & -> & HN). exists ((n, h') :: later), earlier. split; auto.
        simpl. intros [H|H]; auto.
      * intros ([|[n' h''] later] & earlier & H & HN); simpl in H; injection H as H1 H2; subst.
        -- congruence.
        -- exists later, earlier. split; auto. simpl in HN. tauto.
Qed.

Lemma find_handler_none gt l : find_handler gt l = None <-> ~ In gt (map fst l).
Proof.
  induction l as [|[n h'] l IH]; simpl; [tauto|].
  destruct (gt =s? n) eqn:E; sdestruct.
  - split; [discriminate|]. intros H. exfalso. auto.
  - rewrite IH. split; intros H; [intros [H1|H1]; auto|auto].
Qed.

Ltac unfold_te :=
  unfold te_fail_client, te_fail, te_fail_auth, set_common_headers, dcheck, echeck.

(** No error a token endpoint answers with has status 401 of its own. *)
Lemma refused_own te tr e :
  forallb auth_op (ops tr) = true ->
  http_ops tr = answer no_cache_headers (oerr_status (oe_type e)) (oerr_json (with_uri (te_uri te) e)) ->
  oe_type e <> EInvalidToken ->
  (forall ev, In ev tr -> data_failure ev = Some Refused -> (oerr_status (oe_type e) < 500)%Z) ->
  (forall ev, In ev tr -> data_failure ev = Some Broken -> oe_type e = EServerError) ->
  refused te tr.
Proof.
  intros H1 H2 H3 H4 H5. split; auto. exists (oerr_status (oe_type e)), e. split; [|split; [|split; [|split]]].
  - rewrite H2. exists (with_uri (te_uri te) e). split; [apply with_uri_spec|].
    destruct (Z.eqb_spec (oerr_status (oe_type e)) 401) as [E|E]; auto.
    exfalso. apply H3. destruct (oe_type e); simpl in E; congruence.
  - apply oerr_status_range.
  - auto.
  - auto.
  - intros ev Hi Hf. rewrite (H5 ev Hi Hf). auto.
Qed.
Lemma refused_auth te tr e :
  forallb auth_op (ops tr) = true ->
  http_ops tr = answer (basic_challenge (te_realm te) :: no_cache_headers) 401
                       (oerr_json (with_uri (te_uri te) e)) ->
  oe_type e = EInvalidClient ->
  (forall ev, In ev tr -> data_failure ev <> Some Broken) -> refused te tr.
Proof.
  intros H1 H2 H3 H4. split; auto. exists 401%Z, e. split; [|split; [lia|split; [auto|split]]].
  - exists (with_uri (te_uri te) e). split; [apply with_uri_spec|exact H2].
  - intros; lia.
  - intros ev Hi Hf. destruct (H4 ev Hi Hf).
Qed.

Ltac refused_tac :=
  first [ eapply refused_own; [reflexivity | cbn [http_ops ops map filter is_http ev_op]; reflexivity
                              | simpl; congruence
                              | intros ev Hev Hf; bad_event; lia
                              | intros ev Hev Hf; bad_event ]
        | eapply refused_auth; [reflexivity | cbn [http_ops ops map filter is_http ev_op]; reflexivity
                              | reflexivity
                              | intros ev Hev Hf; bad_event ] ].

Lemma validate_by_secret_wp te r gt cid sec b :
  wp gtrue (fun tr x =>
    match x with
    | Done (Some c) => tr = [Ev (OFindClient cid) (Some c, None)] /\
        c_match_secret c sec = true /\ c_can_grant c gt = true
    | Done None => refused te tr /\ exists a, data_calls tr = [Ev (OFindClient cid) a]
    | Panicked => False
    end) [] (validate_by_secret te r gt cid sec b).
Proof.
  unfold validate_by_secret. unfold_te. wp_go; hist.
  all: try (split; [refused_tac | eexists; reflexivity]).
  auto.
Qed.

Lemma validate_by_assertion_wp J te r ca :
  presented_assertion te r ca ->
  wp gtrue (fun tr x =>
    match x with
    | Done (Some c) => exists t sub evs, jstr "sub" (jt_claims t) = Some sub /\
        accepted J ca c t evs /\ tr = (Ev (OFindClient sub) (Some c, None) :: evs)%list
    | Done None => refused te tr
    | Panicked => jl_parse J ca = PMalformed /\ tr = []
    end) [] (validate_by_assertion J te ca).
Proof.
  intros HP.
  unfold validate_by_assertion, jwt_parse, handle_assertion_error, te_keyf, with_id. unfold_te.
  wp_go; hist.
  all: try refused_tac.
  - auto.
  - exists t, s. eexists. split; [assumption|]. split; [|reflexivity].
    match goal with
    | H1 : cf_expired _ = false, H2 : cf_iat _ = false, H3 : cf_nbf _ = false |- _ =>
        pose proof (cflags_current _ _ _ H1 H2 H3)
    end.
    exists x0, z, x2. split; [|split; [assumption|split; [assumption|split; [congruence|]]]].
    + split; [assumption|]. eexists. split; eassumption.
    + split; [assumption|reflexivity].
Qed.

(** ** The endpoint *)

(** The run stopped before any grant was attempted. *)
Definition stopped (J : jwtlib) (te : token_endpoint) (r : request) (tr : list event)
  (res : outcome unit) : Prop :=
  (r_method r <> "POST" /\ res = Done tt /\
   ops tr = [OLog LDebug InvalidHTTPMethod [("http_method", r_method r)]; OStatus 405]) \/
  (r_method r = "POST" /\ res = Done tt /\ refused te tr) \/
  (r_method r = "POST" /\ res = Panicked /\ tr = [] /\ te_accept_assertion te = true /\
   jl_parse J (form_value r "client_assertion") = PMalformed).

(** The run authenticated [c] by the events [ta], then ran handler [h] with events [tg]. *)
Definition granted_run (J : jwtlib) (te : token_endpoint) (r : request) (tr : list event)
  (res : outcome unit) (h : handler) (c : client) (ta tg : list event) : Prop :=
  r_method r = "POST" /\ form_value r "grant_type" <> "" /\
  registered te (form_value r "grant_type") h /\
  authenticated J te r c ta /\
  ((exists cid sec b, presented te r cid sec b) -> c_can_grant c (form_value r "grant_type") = true) /\
  exec (execute_grant te r c h) tg res /\ tr = (ta ++ tg)%list.

Lemma token_handler_cases J te r tr res :
  exec (token_handler J te r) tr res ->
  stopped J te r tr res \/
  exists h c ta tg, granted_run J te r tr res h c ta tg.
Proof.
  unfold token_handler.
  destruct (r_method r =s? "POST") eqn:EM; sdestruct; cbn [negb].
  2: { intros H. left. left. by_wp H. wp_go. destruct x0. auto. }
  destruct (form_value r "grant_type" =s? "") eqn:EG; sdestruct.
  { intros H. left. right. left. by_wp H. unfold te_fail, set_common_headers.
    wp_go. hist. destruct x4. split; auto. split; auto. refused_tac. }
  destruct (find_handler (form_value r "grant_type") (te_handlers te)) as [h|] eqn:EH.
  2: { intros H. left. right. left. by_wp H. unfold te_fail, set_common_headers.
    wp_go. hist. destruct x4. split; auto. split; auto. refused_tac. }
  pose proof (find_client_credential_spec te r) as HC.
  destruct (find_client_credential te r) as [[[cid sec] b]|].
  - intros H. apply exec_bind in H. destruct H as [(t1 & t2 & oc & H1 & H2 & ->)|[H1 ->]].
    + apply (wp_exec _ _ _ _ _ (validate_by_secret_wp te r _ cid sec b)) in H1.
      destruct oc as [c|].
      * destruct H1 as (-> & HM & HG). right. exists h, c, [Ev (OFindClient cid) (Some c, None)], t2.
        split; [auto|]. split; [auto|]. split; [apply find_handler_some; auto|].
        split; [econstructor; eauto|]. split; [auto|]. split; [eassumption|reflexivity].
      * destruct H1 as [HR _]. apply exec_inv in H2. destruct H2 as [-> ->].
        left. right. left. rewrite app_nil_r. auto.
    + apply (wp_exec _ _ _ _ _ (validate_by_secret_wp te r _ cid sec b)) in H1. destruct H1.
  - destruct (te_accept_assertion te) eqn:EA.
    + unfold find_client_assertion.
      destruct (negb (form_value r "client_assertion" =s? "")) eqn:E1; cbn [andb].
      * destruct (form_value r "client_assertion_type" =s? ClientAssertionTypeJWT) eqn:E2; sdestruct.
        -- assert (HP : presented_assertion te r (form_value r "client_assertion")).
           { split; [auto|]. split; [auto|]. split; [auto|]. split; [auto|]. auto. }
           intros H. apply exec_bind in H. destruct H as [(t1 & t2 & oc & H1 & H2 & ->)|[H1 ->]];
             apply (wp_exec _ _ _ _ _ (validate_by_assertion_wp J te r _ HP)) in H1.
           ++ destruct oc as [c|].
              ** destruct H1 as (t & sub & evs & H3 & H4 & ->). right.
                 exists h, c. eexists (Ev (OFindClient sub) (Some c, None) :: evs), t2.
                 split; [auto|]. split; [auto|]. split; [apply find_handler_some; auto|].
                 split; [econstructor; eauto|]. split; [|split; [eassumption|reflexivity]].
                 intros (cid & sec & b & HH). exfalso. exact (HC _ _ _ HH).
              ** apply exec_inv in H2. destruct H2 as [-> ->].
                 left. right. left. rewrite app_nil_r. auto.
           ++ left. right. right. destruct H1 as [H3 ->]. auto 6.
        -- intros H. left. right. left. by_wp H.
           unfold te_fail_auth, set_common_headers.
           wp_go. hist. destruct x5. split; auto. split; auto. refused_tac.
      * intros H. left. right. left. by_wp H.
        unfold te_fail_auth, set_common_headers.
        wp_go. hist. destruct x5. split; auto. split; auto. refused_tac.
    + intros H. left. right. left. by_wp H.
      unfold te_fail_auth, set_common_headers.
      wp_go. hist. destruct x5. split; auto. split; auto. refused_tac.
Qed.

(** ** Running the grant *)

Lemma execute_grant_cases te r c h tr res :
  exec (execute_grant te r c h) tr res ->
  exists now, 
  (exists th rs, exec (h r c now) th (Done (inl rs)) /\ res = Done tt /\
     exists l, tr = (Ev ONow now :: th ++ l)%list /\ data_calls l = [] /\ calls l = [] /\
       http_ops l = success_answer rs /\
       logged l = [[("client_id", c_id c)]])
  \/ (exists th e, exec (h r c now) th (Done (inr e)) /\ res = Done tt /\
     exists l, tr = (Ev ONow now :: th ++ l)%list /\ data_calls l = [] /\ calls l = [] /\
       http_ops l = answer no_cache_headers (oerr_status (oe_type e)) (oerr_json (with_uri (te_uri te) e)) /\
       logged l = [])
  \/ (exists th, exec (h r c now) th Panicked /\ res = Panicked /\ tr = Ev ONow now :: th).
Proof.
  unfold execute_grant. intros H. apply exec_inv in H. destruct H as (now & tr' & -> & H).
  exists now. cbn [bind] in H.
  apply exec_bind in H. destruct H as [(th & t2 & x & H1 & H2 & ->)|[H1 ->]].
  - destruct x as [rs|e].
    + left. exists th, rs. split; [auto|]. by_wp H2.
      unfold te_success, set_common_headers. wp_go. hist. destruct x4.
      split; auto. eexists. split; [reflexivity|]. repeat split; reflexivity.
    + right. left. exists th, e. split; [auto|]. by_wp H2.
      unfold te_fail, set_common_headers. wp_go. hist. destruct x3.
      split; auto. eexists. split; [reflexivity|]. repeat split; reflexivity.
  - right. right. exists tr'. auto.
Qed.
