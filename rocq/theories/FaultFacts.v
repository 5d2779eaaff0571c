(** * Every error of the token endpoint has its reason. *)
From Coq Require Import Lia.
From Verif Require Import WpTac Utils OAuthError IdToken Assertion Grants TokenEndpoint TokenSpec UtilsFacts GrantFacts
  TokenFacts TokenProofs FaultSpec.

Ltac said := eexists; split; [simpl; eauto 20|reflexivity].

Definition told (F : list event -> oerr_type -> string -> Prop) : post (response + oauth_error) := fun tr x =>
  match x with
  | Done (inr e) => F tr (oe_type e) (oe_desc e)
  | _ => True
  end.

Ltac broken := match goal with |- context [Ev ?o ?a] => exists (Ev o a); split; [simpl; auto 20|reflexivity] end.
Ltac found := unfold found_calls, refresh_found; intros ? [<-|[<-|[]]]; simpl; eauto 20.

Lemma gen_none J c iss aud sub nonce expires at_ now :
  gen J (c_alg c) (c_key c) (c_kid c) iss aud sub nonce expires at_ now = None ->
  exists cs, id_claims cs iss aud sub nonce (add64 now expires) at_ now None None /\
    forall tok, ~ signed_for J c cs tok.
Proof.
  unfold gen, raw_gen. intros H. eexists. split; [apply (raw_claims_spec iss aud sub nonce (add64 now expires) at_ now "" "")|].
  intros tok (HA & kid & HS & HK). rewrite HA in H.
  destruct (c_kid c =s? "") eqn:E; sdestruct; destruct HK as [[-> HK]|[-> HK]]; congruence.
Qed.

Ltac leaf := unfold refuse; lazymatch goal with |- wp _ _ _ _ => apply wp_ret | |- _ => idtac end;
  hist; try exact I; unfold told; cbn [oe_type oe_desc new_oerr simple_oerr].

Lemma code_faults J r c now :
  wp gtrue (told (code_fault J r c now)) [] (authorization_code J r c now).
Proof.
  unfold_grants. wp_go; leaf.
  all: try (apply cd_broken; broken).
  all: try (apply cd_unknown; said).
  all: try match goal with |- context [Ev (OFindSession _) (Some ?s, None)] =>
    first [ apply (cd_inactive _ _ _ _ _ s); [simpl; eauto 20|said]
          | apply (cd_disable _ _ _ _ _ s); [simpl; eauto 20|said] ] end.
  all: try match goal with H : form_value _ ?k = "" |- _ =>
    first [ apply (cd_missing _ _ _ _ _ k); [simpl; tauto|exact H]
          | match goal with |- context [Ev (OFindSession _) (Some ?s, None)] =>
              apply (cd_no_pkce _ _ _ _ _ s k); [simpl; eauto 20|assumption|simpl; tauto|exact H] end ] end.
  all: match goal with |- context [Ev (OFindSession _) (Some ?s, None)] => 
       match goal with |- context [Ev (OFindActiveInfo _) (Some ?i, None)] =>
    first [ apply (cd_other_client _ _ _ _ _ s i); [found|assumption]
          | apply (cd_redirect _ _ _ _ _ s); [simpl; eauto 20|assumption]
          | apply (cd_create _ _ _ _ _ s i); [found|said]
          | idtac ] end end.
  all: match goal with
    | H : gen _ _ _ _ _ _ _ _ _ _ _ = None |- context [Ev OIssuer ?iss] =>
        apply gen_none in H; destruct H as (cs & H1 & H2);
        eapply (cd_unsignable _ _ _ _ _ _ _ iss cs); [found|apply include_word; eassumption|simpl; auto 20|exact H1|exact H2]
    | H : find_verifier _ = None |- context [Ev (OFindSession _) (Some ?s, None)] =>
        apply find_verifier_none in H; destruct H;
        apply (cd_pkce_method _ _ _ _ _ s); [simpl; auto 20|assumption|intros [?|[?|[?|[]]]]; congruence]
    | H : find_verifier _ = Some ?m, H2 : pkce_verify _ _ _ = false |- context [Ev (OFindSession _) (Some ?s, None)] =>
        apply (cd_pkce _ _ _ _ _ s);
          [simpl; auto 20|assumption| |assumption
          |intros HR; apply pkce_spec in HR; destruct HR as (m' & HR1 & HR2); congruence]
    end.
  all: match goal with H : find_verifier ?x = Some _ |- _ => simpl;
    destruct (string_dec x "plain") as [->|]; [auto|]; destruct (string_dec x "S256") as [->|]; [auto|];
    assert (HN : find_verifier x = None) by (apply find_verifier_none; auto); congruence end.
Qed.

Lemma refresh_faults r c now :
  wp gtrue (told (refresh_fault r c now)) [] (refresh_token r c now).
Proof.
  unfold_grants. wp_go; leaf.
  all: try (apply rf_broken; broken).
  all: try (apply rf_unknown; said).
  all: try (apply rf_missing; assumption).
  all: match goal with |- context [Ev (OFindByRefresh _) (Some ?s, None)] =>
    first [ apply (rf_inactive _ _ _ _ s); [simpl; auto 20|said]
          | apply (rf_expired _ _ _ _ s); [simpl; auto 20|apply Z.ltb_lt; assumption]
          | match goal with |- context [Ev (OFindActiveInfo _) (Some ?i, None)] =>
              first [ apply (rf_other_client _ _ _ _ s i); [found|assumption]
                    | apply (rf_not_offline _ _ _ _ s i); [found|apply include_word_false; assumption]
                    | apply (rf_refresh _ _ _ _ s i); [found|said] ] end ] end.
Qed.

Lemma scope_refused_true c s :
  scope_refused c s = true -> s <> "" /\ c_can_scope c FDirectGrant s = false.
Proof.
  unfold scope_refused. destruct (s =s? "") eqn:E; sdestruct; [discriminate|].
  destruct (c_can_scope c FDirectGrant s); [discriminate|auto].
Qed.

Ltac direct :=
  first [ apply df_broken; broken
        | match goal with H : scope_refused _ _ = true |- _ => apply scope_refused_true in H; destruct H; apply df_scope; assumption end
        | apply df_info; said
        | match goal with |- context [Ev (OCreateInfo _ _ _) (Some ?i, None)] =>
            apply (df_create _ _ _ _ i); [simpl; auto 20|said] end ].

Lemma password_faults r c now :
  wp gtrue (told (password_fault r c)) [] (password_grant r c now).
Proof.
  unfold_grants. wp_go; leaf.
  all: try (apply pf_broken; broken).
  all: try (apply pf_user; said).
  all: try match goal with H : form_value _ ?k = "" |- _ => apply (pf_missing _ _ _ k); [simpl; tauto|exact H] end.
  all: try (match goal with H : scope_refused _ _ = true |- _ => apply scope_refused_true in H; destruct H; apply pf_scope; assumption end).
  all: match goal with |- context [Ev (OFindUser _ _) (?u, None)] => apply (pf_direct _ _ _ u); [simpl; auto 20|direct] end.
Qed.

Lemma client_faults r c now :
  wp gtrue (told (client_fault r c)) [] (client_credentials r c now).
Proof.
  unfold_grants. wp_go; leaf.
  all: try (apply kf_owner; apply Z.ltb_lt; assumption).
  all: apply kf_direct; direct.
Qed.

Ltac verified_now :=
  match goal with
  | Hk : _ = inr ?k, Hp : jl_parse ?J ?raw = PToken ?t, Hv : jl_verify ?J ?raw ?k = true |- _ =>
      pose proof (verified_intro _ _ _ _ _ Hp Hk Hv)
  | Hk : c_assertion_key ?c _ _ = Some ?k, Hp : jl_parse ?J ?raw = PToken ?t, Hv : jl_verify ?J ?raw ?k = true |- _ =>
      assert (verified J raw c t) by (split; [exact Hp|exists k; split; [exact Hk|exact Hv]])
  end.

Ltac issued := match goal with
  | H : (_ && negb (_ || ?f || _))%bool = false, Hv : jl_verify _ _ _ = true |- ?f = true =>
      rewrite Hv in H; destruct f; [reflexivity|discriminate H] end.

(* A fault of an assertion at the end of a path. *)
Ltac assertion :=
  first
  [ apply af_broken; broken
  | apply af_format; assumption
  | apply af_algorithm; assumption
  | eapply af_no_issuer; simpl; auto 20
  | match goal with Hp : jl_parse _ _ = PToken ?t |- _ =>
      first
      [ apply (af_key _ _ _ _ t); [exact Hp|unfold hdr; assumption]
      | eapply (af_signature _ _ _ _ t); [exact Hp|unfold hdr; eassumption|eassumption]
      | verified_now;
        first
        [ eapply (af_expired _ _ _ _ t); [assumption|simpl; eauto 20|assumption]
        | eapply (af_early _ _ _ _ t); [assumption|simpl; eauto 20|assumption]
        | eapply (af_issued _ _ _ _ t); [assumption|simpl; eauto 20|issued]
        | apply (af_no_exp _ _ _ _ t); assumption
        | eapply (af_replayed _ _ _ _ t); [assumption|eassumption|said]
        | apply (af_no_aud _ _ _ _ t); assumption
        | eapply (af_audience _ _ _ _ t); [assumption|eassumption|simpl; eauto 20|congruence] ] ] end ].

Lemma jwt_faults J r c now :
  wp gtrue (told (jwt_fault J r c)) [] (jwt_grant J r c now).
Proof.
  unfold jwt_grant, jwt_parse, handle_assertion_error, grant_keyf, with_id. unfold_grants.
  wp_go; leaf.
  all: try match goal with H : match c_assertion_key ?c ?a ?k with _ => _ end = _ |- _ =>
    destruct (c_assertion_key c a k) eqn:?; try discriminate H; try (injection H as ?) end.
  all: subst.
  all: try (apply jf_missing; assumption).
  all: try (apply jf_assertion; assertion).
  all: try match goal with |- context [Ev (OFindUserBySub ?s) (?u, None)] => apply (jf_direct _ _ _ _ u s); [simpl; auto 20|direct] end.
  all: try (verified_now; match goal with H : verified _ _ _ ?t |- _ =>
    first [ apply (jf_no_sub _ _ _ _ t); assumption
          | apply (jf_user _ _ _ _ t); [assumption|assumption|said] ] end).
Qed.

Lemma grant_faults J h r c now : bundled J h ->
  wp gtrue (told (fun tr => grant_fault J r c now tr h)) [] (h r c now).
Proof.
  intros [].
  - eapply wp_post; [|apply code_faults]. intros tr [[|]|]; simpl; auto. apply gf_code.
  - eapply wp_post; [|apply refresh_faults]. intros tr [[|]|]; simpl; auto. apply gf_refresh.
  - eapply wp_post; [|apply password_faults]. intros tr [[|]|]; simpl; auto. apply gf_password.
  - eapply wp_post; [|apply client_faults]. intros tr [[|]|]; simpl; auto. apply gf_client.
  - eapply wp_post; [|apply jwt_faults]. intros tr [[|]|]; simpl; auto. apply gf_jwt.
Qed.

(** ** The endpoint *)

Definition answered_for (J : jwtlib) (te : token_endpoint) (r : request) (tr : list event) : Prop :=
  exists st e, error_answer te st e (http_ops tr) /\ reason J te r tr st (oe_type e) (oe_desc e).

Lemma because J te r tr e :
  http_ops tr = answer no_cache_headers (oerr_status (oe_type e)) (oerr_json (with_uri (te_uri te) e)) ->
  oe_type e <> EInvalidToken ->
  reason J te r tr (oerr_status (oe_type e)) (oe_type e) (oe_desc e) -> answered_for J te r tr.
Proof.
  intros H1 H2 H3. exists (oerr_status (oe_type e)), e. split; [|exact H3]. rewrite H1.
  exists (with_uri (te_uri te) e). split; [apply with_uri_spec|].
  destruct (Z.eqb_spec (oerr_status (oe_type e)) 401) as [E|E]; auto.
  exfalso. apply H2. destruct (oe_type e); simpl in E; congruence.
Qed.
Lemma because_auth J te r tr e :
  http_ops tr = answer (basic_challenge (te_realm te) :: no_cache_headers) 401 (oerr_json (with_uri (te_uri te) e)) ->
  reason J te r tr 401 (oe_type e) (oe_desc e) -> answered_for J te r tr.
Proof.
  intros H1 H2. exists 401%Z, e. split; [|exact H2]. exists (with_uri (te_uri te) e).
  split; [apply with_uri_spec|exact H1].
Qed.
Ltac because_tac :=
  first [ eapply because; [cbn [http_ops ops map filter is_http ev_op]; reflexivity|simpl; congruence|]
        | eapply because_auth; [cbn [http_ops ops map filter is_http ev_op]; reflexivity|] ];
  cbn [oe_type oe_desc new_oerr simple_oerr].

Lemma secret_faults J te r cid sec b : presented te r cid sec b ->
  wp gtrue (fun tr x => match x with Done None => answered_for J te r tr | _ => True end) []
    (validate_by_secret te r (form_value r "grant_type") cid sec b).
Proof.
  intros HP. unfold validate_by_secret. unfold_te. wp_go; hist; try exact I; because_tac.
  all: try (apply why_broken; broken).
  all: try (eapply (why_unknown_client _ _ _ _ cid sec true); [exact HP|said]).
  all: try (eapply (why_unknown_client _ _ _ _ cid sec false); [exact HP|said]).
  all: try (eapply (why_wrong_secret _ _ _ _ cid sec true); [exact HP|simpl; eauto 20|assumption]).
  all: try (eapply (why_wrong_secret _ _ _ _ cid sec false); [exact HP|simpl; eauto 20|assumption]).
  all: eapply why_not_allowed; [exact HP|simpl; eauto 20|assumption|assumption].
Qed.

Lemma assertion_faults J te r ca : presented_assertion te r ca ->
  wp gtrue (fun tr x => match x with Done None => answered_for J te r tr | _ => True end) []
    (validate_by_assertion J te ca).
Proof.
  intros HP. unfold validate_by_assertion, jwt_parse, handle_assertion_error, te_keyf, with_id. unfold_te.
  wp_go; hist; try exact I; because_tac.
  all: eapply (why_assertion _ _ _ _ ca _ []);
    [exact HP|symmetry; apply app_nil_r|intros now HI; repeat (destruct HI as [HI|HI]; [discriminate HI|]); destruct HI|].
  all: try (apply xf_broken; broken).
  all: try (apply xf_algorithm; assumption).
  all: match goal with Hp : jl_parse _ _ = PToken ?t |- _ =>
    first [ apply (xf_no_sub _ _ _ t); assumption
          | eapply (xf_unknown _ _ _ t); [exact Hp|eassumption|said]
          | eapply (xf_fault _ _ _ t); [exact Hp|eassumption|simpl; eauto 20|] ] end.
  all: try assertion.
Qed.

Lemma errors_have_reasons J te r tr :
  only_bundled J te -> r_method r = "POST" -> exec (token_handler J te r) tr (Done tt) ->
  ~ In 200%Z (statuses tr) -> answered_for J te r tr.
Proof.
  intros HB HM H HN. unfold token_handler in H. rewrite HM in H.
  change (negb ("POST" =s? "POST")) with false in H. cbn iota in H.
  destruct (form_value r "grant_type" =s? "") eqn:EG; sdestruct.
  { by_wp H. unfold te_fail, set_common_headers. wp_go. hist. because_tac. apply why_missing. exact EG. }
  destruct (find_handler (form_value r "grant_type") (te_handlers te)) as [h|] eqn:EH.
  2: { by_wp H. unfold te_fail, set_common_headers. wp_go. hist. because_tac. apply why_unsupported; [exact EG|].
       intros h HR. apply find_handler_some in HR. congruence. }
  pose proof (find_client_credential_spec te r) as HC.
  assert (HR : registered te (form_value r "grant_type") h) by (apply find_handler_some; auto).
  pose proof (registered_bundled _ _ _ _ HB HR) as HBh.
  assert (HG : forall t1 t2 c, authenticated J te r c t1 -> exec (execute_grant te r c h) t2 (Done tt) ->
    tr = (t1 ++ t2)%list -> answered_for J te r tr).
  { intros t1 t2 c HA HX ->. destruct (authenticated_ops _ _ _ _ _ HA) as (HA1 & _).
    destruct (execute_grant_cases _ _ _ _ _ _ HX) as
      (now & [(th & rs & HE & _ & l & -> & HL1 & HL2 & HL3 & _)|[(th & e & HE & _ & l & -> & HL1 & HL2 & HL3 & _)|(th & _ & HF & _)]]);
      [| |discriminate HF].
    - exfalso. apply HN. change (Ev ONow now :: th ++ l)%list with ((Ev ONow now :: th) ++ l)%list.
      rewrite !statuses_app, (statuses_http l), HL3. apply in_or_app. right. apply in_or_app. right. simpl. auto.
    - pose proof (wp_exec _ _ _ _ _ (grant_faults J h r c now HBh) HE) as HF. cbn in HF.
      destruct (bundled_run _ _ _ _ _ _ _ HBh HE) as [HH (HT & _)].
      apply (because J te r _ e).
      + change (Ev ONow now :: th ++ l)%list with ([Ev ONow now] ++ th ++ l)%list.
        rewrite !http_ops_app, HA1, HH. exact HL3.
      + intros HX'. rewrite HX' in HT. simpl in HT. intuition discriminate.
      + eapply (why_grant _ _ _ _ t1 th l h c now); eauto. }
  destruct (find_client_credential te r) as [[[cid sec] b]|].
  - apply exec_bind in H. destruct H as [(t1 & t2 & oc & H1 & H2 & HT)|[H1 HF]]; [|discriminate HF].
    destruct oc as [c|].
    + pose proof (wp_exec _ _ _ _ _ (validate_by_secret_wp te r _ cid sec b) H1) as (HE & HM' & _).
      eapply HG; [|exact H2|exact HT]. rewrite HE. econstructor; eauto.
    + pose proof (wp_exec _ _ _ _ _ (secret_faults J te r cid sec b HC) H1) as HE. cbn in HE.
      apply exec_inv in H2. destruct H2 as [-> _]. rewrite HT, app_nil_r. exact HE.
  - destruct (if te_accept_assertion te then find_client_assertion r else None) as [ca|] eqn:EA.
    + assert (HP : presented_assertion te r ca).
      { destruct (te_accept_assertion te) eqn:E; [|discriminate EA]. unfold find_client_assertion in EA.
        destruct (form_value r "client_assertion" =s? "") eqn:E1; [discriminate EA|]. cbn [negb andb] in EA.
        destruct (form_value r "client_assertion_type" =s? ClientAssertionTypeJWT) eqn:E2; [|discriminate EA].
        injection EA as <-. sdestruct. repeat split; auto. }
      apply exec_bind in H. destruct H as [(t1 & t2 & oc & H1 & H2 & HT)|[H1 HF]]; [|discriminate HF].
      destruct oc as [c|].
      * pose proof (wp_exec _ _ _ _ _ (validate_by_assertion_wp J te r _ HP) H1) as (t & sub & evs & H3 & H4 & HE).
        eapply HG; [|exact H2|exact HT]. rewrite HE. econstructor; eauto.
      * pose proof (wp_exec _ _ _ _ _ (assertion_faults J te r ca HP) H1) as HE. cbn in HE.
        apply exec_inv in H2. destruct H2 as [-> _]. rewrite HT, app_nil_r. exact HE.
    + by_wp H. unfold te_fail_auth, set_common_headers. wp_go. hist. because_tac. apply why_no_credentials; [exact HC|].
      intros ca (HA1 & _ & HA2 & HA3 & HA4). rewrite HA1 in EA. unfold find_client_assertion in EA.
      rewrite HA4 in EA. change (ClientAssertionTypeJWT =s? ClientAssertionTypeJWT) with true in EA.
      subst ca. destruct (form_value r "client_assertion" =s? "") eqn:E1; sdestruct; [auto|discriminate EA].
Qed.
