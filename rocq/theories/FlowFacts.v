(** * What of a request the endpoints depend on. *)
From Coq Require Import Lia.
From Verif Require Import WpTac Utils OAuthError IdToken Assertion Grants TokenEndpoint AuthzResponse AuthzEndpoint
  TokenSpec UtilsFacts GrantFacts TokenFacts TokenProofs LogFacts Demo TokenComplete TokenMore AssertSpec.

Ltac known := cbn [In known_token_params known_authz_params]; tauto.

Lemma bundled_view J h r r' c now : bundled J h -> same_token_request r r' -> h r c now = h r' c now.
Proof.
  intros HB (_ & HF & _).
  destruct HB; unfold authorization_code, refresh_token, password_grant, client_credentials,
    jwt_grant, pkce_check;
  repeat match goal with |- context [form_value r ?k] => rewrite (HF k) by known end;
  reflexivity.
Qed.

Lemma same_token_sym r r' : same_token_request r r' -> same_token_request r' r.
Proof. intros (H1 & H2 & H3 & H4). repeat split; intros; symmetry; auto. Qed.

Lemma credential_view te r r' : same_token_request r r' ->
  find_client_credential te r = find_client_credential te r'.
Proof.
  intros (_ & HF & HP & HH). unfold find_client_credential, basic_auth.
  rewrite (HH "Authorization") by (cbn [In]; tauto).
  rewrite (HF "client_id"), (HF "client_secret") by known.
  rewrite (HP "client_id"), (HP "client_secret") by (cbn [In]; tauto).
  reflexivity.
Qed.

Lemma secret_view te r r' gt cid sec b : same_token_request r r' ->
  validate_by_secret te r gt cid sec b = validate_by_secret te r' gt cid sec b.
Proof.
  intros (_ & _ & _ & HH). unfold validate_by_secret.
  rewrite (HH "REMOTE_ADDR"), (HH "X-FORWARDED-FOR") by (cbn [In]; tauto). reflexivity.
Qed.

Lemma execute_grant_view J te r r' c h tr res : bundled J h -> same_token_request r r' ->
  exec (execute_grant te r c h) tr res -> exec (execute_grant te r' c h) tr res.
Proof.
  intros Hh HS He. unfold execute_grant in *.
  apply exec_inv in He. destruct He as (now & tr2 & -> & He). apply exec_vis. cbn [bind] in *.
  rewrite <- (bundled_view J h r r' c now Hh HS). exact He.
Qed.

Lemma token_view J te r r' tr res : only_bundled J te -> same_token_request r r' ->
  exec (token_handler J te r) tr res -> exec (token_handler J te r') tr res.
Proof.
  intros HB HS He. pose proof HS as (HM & HF & _). unfold token_handler in *.
  rewrite <- HM, <- (HF "grant_type") by known.
  destruct (negb (r_method r =s? "POST")); auto.
  destruct (form_value r "grant_type" =s? ""); auto.
  destruct (find_handler (form_value r "grant_type") (te_handlers te)) as [h|] eqn:EH; auto.
  assert (Hh : bundled J h).
  { apply find_handler_some in EH. eapply registered_bundled; eauto. }
  rewrite <- (credential_view te r r' HS).
  destruct (find_client_credential te r) as [[[cid sec] b]|].
  { rewrite <- (secret_view te r r' (form_value r "grant_type") cid sec b HS).
    eapply exec_ext; [|exact He]. intros [c|] t x; auto. apply (execute_grant_view J); auto. }
  replace (find_client_assertion r') with (find_client_assertion r).
  2: { unfold find_client_assertion.
       rewrite (HF "client_assertion"), (HF "client_assertion_type") by known. reflexivity. }
  destruct (if te_accept_assertion te then find_client_assertion r else None); auto.
  eapply exec_ext; [|exact He]. intros [c|] t x; auto. apply (execute_grant_view J); auto.
Qed.

Lemma token_depends J te r r' : only_bundled J te -> same_token_request r r' ->
  forall tr res, exec (token_handler J te r) tr res <-> exec (token_handler J te r') tr res.
Proof.
  intros HB HS tr res. split; apply token_view; auto. apply same_token_sym. exact HS.
Qed.

Lemma authz_depends E pol r r' : same_authz_request r r' ->
  forall tr res, exec (handle_request E pol r) tr res <-> exec (handle_request E pol r') tr res.
Proof.
  intros HF tr res. unfold handle_request, hr_client, hr_mode, hr_params.
  repeat match goal with |- context [form_value r ?k] => rewrite (HF k) by known end.
  tauto.
Qed.

Lemma kv_get_app k a b : kv_get k (a ++ b)%list = match kv_get k a with Some v => Some v | None => kv_get k b end.
Proof.
  induction a as [|[k' v] a IH]; simpl; auto. destruct (k =s? k'); auto.
Qed.
Lemma kv_get_some k l : In k (map fst l) -> exists v, kv_get k l = Some v.
Proof.
  induction l as [|[k' v] l IH]; simpl; [tauto|]. intros [->|H].
  - rewrite seqb_refl. eauto.
  - destruct (k =s? k'); eauto.
Qed.

Lemma requeried_form known r r' : requeried known r r' -> has_body r = true ->
  forall k, In k known -> form_value r k = form_value r' k.
Proof.
  intros (HM & _ & _ & HBo & HPa & HQ) HB k HK. unfold form_value, post_form.
  assert (HB' : has_body r' = true) by (unfold has_body in *; rewrite HM; exact HB).
  rewrite HB, HB', HBo, HPa, !kv_get_app. destruct (HQ k HK) as [H|H].
  - destruct (kv_get_some _ _ H) as [v ->]. reflexivity.
  - rewrite H. reflexivity.
Qed.

Lemma requeried_token r r' : requeried known_token_params r r' -> has_body r = true -> same_token_request r r'.
Proof.
  intros HR HB. pose proof (requeried_form _ _ _ HR HB) as HF.
  destruct HR as (HM & HP & HH & HBo & HPa & HQ). repeat split; auto.
  - intros k _. unfold post_form_value, post_form, has_body. rewrite HM, HBo, HPa. reflexivity.
  - intros k _. unfold header_get. rewrite HH. reflexivity.
Qed.

Lemma post_has_body r : r_method r = "POST" -> has_body r = true.
Proof. unfold has_body. intros ->. reflexivity. Qed.

Lemma token_query J te r r' : only_bundled J te -> r_method r = "POST" -> requeried known_token_params r r' ->
  forall tr res, exec (token_handler J te r) tr res <-> exec (token_handler J te r') tr res.
Proof.
  intros HB HM HR. apply token_depends; auto. apply requeried_token; auto using post_has_body.
Qed.

Lemma authz_query E pol r r' : r_method r = "POST" -> requeried known_authz_params r r' ->
  forall tr res, exec (handle_request E pol r) tr res <-> exec (handle_request E pol r') tr res.
Proof.
  intros HM HR. apply authz_depends. intros k Hk. eapply requeried_form; eauto using post_has_body.
Qed.
