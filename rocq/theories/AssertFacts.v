(** * Recorded assertion claims, unchecked issuers, unread parameters. *)
From Coq Require Import Lia.
From Verif Require Import WpTac Utils OAuthError IdToken Assertion Grants TokenEndpoint
  TokenSpec UtilsFacts GrantFacts TokenFacts TokenProofs LogFacts Demo TokenComplete TokenMore AssertSpec.

(** ** Recording *)

Definition rec_guard (J : jwtlib) (te : token_endpoint) (r : request) : guard := fun h o =>
  match o with
  | ORecord cid jti iat exp => records J te r h cid jti iat exp
  | _ => True
  end.

Definition handler_rec (J : jwtlib) (r : request) (c : client) : guard := fun h o =>
  match o with
  | ORecord cid jti iat exp =>
      exists t now, form_value r "assertion" <> "" /\
        verified J (form_value r "assertion") c t /\ current J now t /\
        In (Ev OJwtNow now) h /\ cid = c_id c /\ jti = claim_jti t /\ iat = claim_iat t /\
        claim_int t "exp" = Some exp
  | _ => True
  end.

Ltac rec_facts :=
  repeat match goal with
    | H : negb _ = false |- _ => apply Bool.negb_false_iff in H
    | H : negb _ = true |- _ => apply Bool.negb_true_iff in H
    | H : (_ && _)%bool = true |- _ => apply andb_prop in H; destruct H
    | H : (_ || _)%bool = false |- _ => apply orb_false_elim in H; destruct H
    end;
  repeat match goal with
    | H1 : cf_expired _ = false, H2 : cf_iat _ = false, H3 : cf_nbf _ = false |- _ =>
        pose proof (cflags_current _ _ _ H1 H2 H3); clear H1 H2 H3
    end.

Lemma handler_records J h r c now : bundled J h ->
  wp (handler_rec J r c) (fun _ _ => True) [] (h r c now).
Proof.
  intros [].
  - unfold_grants. wp_go; unfold refuse; wp_end; exact I.
  - unfold_grants. wp_go; unfold refuse; wp_end; exact I.
  - unfold_grants. wp_go; unfold refuse; wp_end; exact I.
  - unfold_grants. wp_go; unfold refuse; wp_end; exact I.
  - unfold jwt_grant, jwt_parse, handle_assertion_error, grant_keyf, with_id. unfold_grants.
    wp_go; unfold refuse; wp_end; try exact I.
    rec_facts.
    match goal with
    | Hk : _ = inr ?k, Hp : jl_parse ?J ?raw = PToken ?t, Hv : jl_verify ?J ?raw ?k = true |- _ =>
        pose proof (verified_intro _ _ _ _ _ Hp Hk Hv)
    end.
    hist. simpl. exists t, x. split; [assumption|]. split; [assumption|].
    repeat split; auto.
Qed.

Lemma execute_grant_records J te r c h cid hist : bundled J h ->
  In (Ev (OFindClient cid) (Some c, None)) hist ->
  wp (rec_guard J te r) (fun _ _ => True) hist (execute_grant te r c h).
Proof.
  intros Hh Hin. unfold execute_grant. cbn [bind call]. apply wp_vis; [exact I|]. intros now.
  apply wp_bind. eapply wp_post; [|eapply wp_extends, wp_weaken; [apply (handler_records J h r c now Hh)|]].
  - intros h1 [[rs|er]|] [[t ->] _]; auto.
    + unfold te_success, set_common_headers, logm, call. cbn [bind]. wp_go; exact I.
    + unfold te_fail, set_common_headers. wp_go; exact I.
  - intros t o. destruct o; auto. unfold handler_rec, rec_guard, records.
    intros (tk & nw & H0 & H1 & H2 & H3 & H4 & H5 & H6 & H7).
    exists (form_value r "assertion"), c, tk, nw.
    split; [auto|]. split; [exists cid; rewrite !in_app_iff; auto|].
    split; [rewrite in_app_iff; auto|]. tauto.
Qed.

Lemma assertion_records J te r ca : presented_assertion te r ca ->
  wp (rec_guard J te r) (fun h x => match x with
    | Done (Some c) => exists cid, In (Ev (OFindClient cid) (Some c, None)) h
    | _ => True end) [] (validate_by_assertion J te ca).
Proof.
  intros HP.
  unfold validate_by_assertion, jwt_parse, handle_assertion_error, te_keyf, with_id.
  unfold_te.
  wp_go; try exact I.
  - rec_facts. hist. simpl. unfold records. eexists ca, _, _, _. split; [left; exact HP|].
    split; [eexists; simpl; left; reflexivity|]. split; [simpl; right; left; reflexivity|].
    split; [split; [eassumption|]; eexists; split; [|eassumption]; unfold hdr; eassumption|].
    repeat split; try eassumption; reflexivity.
  - hist. eexists. simpl. left. reflexivity.
Qed.

Lemma secret_records J te r gt cid sec b :
  wp (rec_guard J te r) (fun h x => match x with
    | Done (Some c) => In (Ev (OFindClient cid) (Some c, None)) h
    | _ => True end) [] (validate_by_secret te r gt cid sec b).
Proof.
  unfold validate_by_secret. unfold_te. wp_go; try exact I. hist. simpl. auto.
Qed.

Lemma endpoint_records J te r : only_bundled J te ->
  wp (rec_guard J te r) (fun _ _ => True) [] (token_handler J te r).
Proof.
  intros HB. unfold token_handler.
  destruct (negb (r_method r =s? "POST")).
  { wp_go; exact I. }
  destruct (form_value r "grant_type" =s? "") eqn:E.
  { unfold te_fail, set_common_headers. wp_go; exact I. }
  destruct (find_handler (form_value r "grant_type") (te_handlers te)) as [h|] eqn:EH.
  2: { unfold te_fail, set_common_headers. wp_go; exact I. }
  assert (Hh : bundled J h).
  { apply find_handler_some in EH. eapply registered_bundled; eauto. }
  pose proof (find_client_credential_spec te r) as HS.
  destruct (find_client_credential te r) as [[[cid sec] b]|].
  { apply wp_bind. eapply wp_post; [|apply secret_records].
    intros h1 [[c|]|] H; simpl; auto. eapply execute_grant_records; eauto. }
  destruct (te_accept_assertion te) eqn:EA.
  2: { unfold te_fail_auth, set_common_headers. wp_go; exact I. }
  destruct (find_client_assertion r) as [ca|] eqn:EC.
  2: { unfold te_fail_auth, set_common_headers. wp_go; exact I. }
  assert (HP : presented_assertion te r ca).
  { unfold find_client_assertion in EC.
    destruct (form_value r "client_assertion" =s? "") eqn:E1; sdestruct; [discriminate|].
    destruct (form_value r "client_assertion_type" =s? ClientAssertionTypeJWT) eqn:E2; sdestruct;
      cbn [negb andb] in EC; [|discriminate]. injection EC as <-.
    repeat split; auto. }
  apply wp_bind. eapply wp_post; [|apply (assertion_records J te r ca HP)].
  intros h1 [[c|]|] H; simpl; auto. destruct H as (cid & H). eapply execute_grant_records; eauto.
Qed.

Lemma recorded_truthfully J te r tr res t1 cid jti iat exp x t2 :
  only_bundled J te -> exec (token_handler J te r) tr res ->
  tr = (t1 ++ Ev (ORecord cid jti iat exp) x :: t2)%list ->
  records J te r t1 cid jti iat exp.
Proof.
  intros HB He Ht. exact (wp_guard _ _ _ _ _ _ _ _ (endpoint_records J te r HB) He Ht).
Qed.
