(** * What the five grant handlers do, on every execution. *)
From Coq Require Import Lia.
From Verif Require Import WpTac Utils OAuthError IdToken Assertion Grants TokenSpec UtilsFacts.

Ltac unfold_grants :=
  unfold authorization_code, refresh_token, password_grant, client_credentials, direct_tail,
    refuse, dcheck, echeck, zcheck, pkce_check, code_id_token.

Ltac bad_event :=
  repeat match goal with H : In _ (_ :: _) |- _ => destruct H as [<-|H] end;
  try match goal with H : In _ [] |- _ => destruct H end;
  simpl in *; try discriminate; auto.

(** ** Bridges from the model's tests to the specification's relations *)

Lemma pkce_passed_intro r m v :
  find_verifier (form_value r "code_challenge_method") = Some m ->
  pkce_verify m (form_value r "code_challenge") v = true -> pkce_passed r v.
Proof. intros H1 H2. right. apply pkce_spec. eauto. Qed.
Lemma pkce_passed_nil r v : v = "" -> pkce_passed r v.
Proof. left. auto. Qed.

Lemma include_word s w : scope_include s w = true <-> has_word s w.
Proof.
  split.
  - intros H. destruct (words_exist s) as [l Hl]. exists l. split; auto.
    apply (scope_include_spec s l); auto.
  - intros (l & Hl & HI). apply (scope_include_spec s l); auto.
Qed.
Lemma include_word_false s w : scope_include s w = false <-> ~ has_word s w.
Proof.
  split.
  - intros H HW. apply include_word in HW. congruence.
  - intros H. destruct (scope_include s w) eqn:E; auto. apply include_word in E. tauto.
Qed.

Definition nonempty (s : string) : option string := if s =s? "" then None else Some s.

Lemma in_opt b k v k' v' : In (k, v) (opt_claim b k' v') <-> b = true /\ k = k' /\ v = v'.
Proof.
  destruct b; simpl; split; try tauto.
  - intros [H|[]]. injection H as <- <-. auto.
  - intros (_ & -> & ->). auto.
  - intros (H & _). discriminate.
Qed.

Lemma raw_claims_spec iss aud sub nonce exp at_ iat ah ch :
  id_claims (raw_claims iss aud sub nonce exp at_ iat ah ch) iss aud sub nonce exp at_ iat
            (nonempty ah) (nonempty ch).
Proof.
  unfold raw_claims. split.
  - unfold opt_claim.
    destruct (negb (nonce =s? "")); destruct (0 <=? iat)%Z; destruct (0 <=? at_)%Z;
    destruct (negb (ah =s? "")); destruct (negb (ch =s? "")); cbn [app map fst];
    repeat (apply NoDup_cons; [simpl; intuition discriminate|]); apply NoDup_nil.
  - intros k v. rewrite !in_app_iff, !in_opt.
    assert (N : forall s, negb (s =s? "") = true <-> s <> "").
    { intros s. destruct (s =s? "") eqn:E; sdestruct; simpl; split; congruence. }
    assert (O : forall s k', (negb (s =s? "") = true /\ k = k' /\ v = CStr s) <->
                 (exists h, nonempty s = Some h /\ k = k' /\ v = CStr h)).
    { intros s k'. unfold nonempty. destruct (s =s? "") eqn:E; sdestruct; simpl; split.
      - intros [H _]; discriminate.
      - intros (h & H & _); discriminate.
      - intros (_ & -> & ->); eauto.
      - intros (h & H & -> & ->). injection H as ->. auto. }
    rewrite (O ah), (O ch), N, !Z.leb_le.
    assert (P : forall k' v', (k', v') = (k, v) <-> k = k' /\ v = v').
    { intros; split; [intros H; injection H; auto | intros (-> & ->); auto]. }
    cbn [In]. rewrite !P. tauto.
Qed.

Lemma raw_gen_spec J c iss aud sub nonce exp at_ iat ah ch tok :
  raw_gen J (c_alg c) (c_key c) (c_kid c) iss aud sub nonce exp at_ iat ah ch = Some tok ->
  exists cs, id_claims cs iss aud sub nonce exp at_ iat (nonempty ah) (nonempty ch) /\
             signed_for J c cs tok.
Proof.
  unfold raw_gen. destruct (jl_has_alg J (c_alg c)) eqn:E; [|discriminate]. intros H.
  eexists. split; [apply raw_claims_spec|]. split; auto.
  eexists. split; [exact H|]. destruct (c_kid c =s? "") eqn:E1; sdestruct; auto.
Qed.

Lemma gen_spec J c iss aud sub nonce e at_ now tok :
  gen J (c_alg c) (c_key c) (c_kid c) iss aud sub nonce e at_ now = Some tok ->
  exists cs, id_claims cs iss aud sub nonce (add64 now e) at_ now None None /\
             signed_for J c cs tok.
Proof. intros H. apply raw_gen_spec in H. exact H. Qed.

(** ** authorization_code *)

(** When an operation may be performed during the exchange. *)
Definition code_guard (r : request) (c : client) : guard := fun h o =>
  match o with
  | OCreateToken i b =>
      exists sess info, i = Some info /\ b = true /\ code_checks r c sess info /\
        data_calls h = found_calls r sess info
  | ODisable sess =>
      exists info tok, code_checks r c sess info /\
        data_calls h = (found_calls r sess info ++
                        [Ev (OCreateToken (Some info) true) (Some tok, None)])%list
  | OFindSession code => code = form_value r "code" /\ code <> "" /\ data_calls h = []
  | ORefresh _ _ | OFindUser _ _ | OCreateInfo _ _ _ | OCreateSession _ _ | OFindUserBySub _
  | ORecord _ _ _ _ | OFindClient _ | OFindByAccess _ | OFindByRefresh _ | OFindInfo _ _ => False
  | OFindActiveInfo id =>
      exists sess, id = as_auth_id sess /\
        data_calls h = [Ev (OFindSession (form_value r "code")) (Some sess, None)]
  | _ => True
  end.

Ltac grant_end :=
  hist; try exact I;
  lazymatch goal with
  | |- _ /\ refusal _ _ => split; [reflexivity|]; split; [simpl; tauto|];
      split; intros ev Hev Hf; bad_event
  | |- _ => idtac
  end.

Lemma authorization_code_wp J r c now :
  wp (code_guard r c) (fun tr x => http_ops tr = [] /\
     match x with
     | Done (inl rs) => all_good tr /\ code_success J r c now (data_calls tr) rs
     | Done (inr e) => refusal tr e
     | Panicked => False
     end) [] (authorization_code J r c now).
Proof.
  unfold_grants. wp_go; unfold refuse; try apply wp_ret; grant_end.
  all: unfold code_guard; cbn beta iota.
  all: try (repeat split; auto; fail).
  all: try match goal with
    | |- exists _, _ /\ _ = _ => eexists; split; [reflexivity|reflexivity]
    end.
  all: match goal with
    | H1 : find_verifier _ = Some _, H2 : pkce_verify _ _ ?v = true |- _ =>
        pose proof (pkce_passed_intro _ _ _ H1 H2) as HP; clear H1 H2
    | H : as_verifier ?s = "" |- context [code_checks ?r] =>
        pose proof (pkce_passed_nil r _ H) as HP
    | H : as_verifier ?s = "" |- context [code_success _ ?r] =>
        pose proof (pkce_passed_nil r _ H) as HP
    end.
  all: try match goal with
    | _ : ai_client ?i = c_id _, _ : as_redirect ?s = _ |- exists _ _, Some _ = _ /\ _ =>
       exists s, i; unfold code_checks; repeat split; auto
    | _ : ai_client ?i = c_id _, _ : as_redirect ?s = _, t : oauthtoken |- exists _ _, code_checks _ _ _ _ /\ _ =>
       exists i, t; unfold code_checks; repeat split; auto
    end.
  all: split; [reflexivity|]; split; [intros ev Hev; bad_event|].
  all: match goal with
    | _ : ai_client ?i = c_id _, t : oauthtoken, _ : as_redirect ?s = _ |- _ =>
       exists s, i, t; unfold code_checks; split; [repeat split; auto|]
    end.
  all: repeat (split; [reflexivity|]); eexists; split; [reflexivity|].
  all: unfold include_openid in *;
    match goal with
    | H : scope_include _ _ = true |- _ => left; apply include_word in H; split; [exact H|]
    | H : scope_include _ _ = false |- _ => right; apply include_word_false in H;
        split; [exact H|]; split; reflexivity
    end.
  all: match goal with H : gen _ _ _ _ _ _ _ _ _ _ _ = Some _ |- _ =>
    apply gen_spec in H; destruct H as (cs & H1 & H2) end.
  all: eexists _, cs; split; [reflexivity|]; split; assumption.
Qed.

(** ** refresh_token *)

Definition refresh_guard (r : request) (c : client) (now : Z) : guard := fun h o =>
  match o with
  | ORefresh i t => refresh_checks r c now t i /\ data_calls h = refresh_found r t i
  | OFindByRefresh t => t = form_value r "refresh_token" /\ t <> "" /\ data_calls h = []
  | OFindActiveInfo id =>
      exists old, id = ot_auth_id old /\
        data_calls h = [Ev (OFindByRefresh (form_value r "refresh_token")) (Some old, None)]
  | OLog _ _ _ => True
  | _ => False
  end.

Lemma refresh_token_wp r c now :
  wp (refresh_guard r c now) (fun tr x => http_ops tr = [] /\
     match x with
     | Done (inl rs) => all_good tr /\ refresh_success r c now (data_calls tr) rs
     | Done (inr e) => refusal tr e
     | Panicked => False
     end) [] (refresh_token r c now).
Proof.
  unfold_grants. wp_go; unfold refuse; try apply wp_ret; grant_end.
  all: unfold refresh_guard; cbn beta iota; try exact I.
  all: repeat match goal with H : (_ <? _)%Z = false |- _ => apply Z.ltb_ge in H end.
  all: try match goal with H : include_offline _ = true |- _ => apply include_word in H end.
  all: try match goal with |- http_ops _ = [] /\ _ => split; [reflexivity|];
    split; [intros ev Hev; bad_event|] end.
  all: try (repeat split; auto; fail).
  all: try (eexists; split; reflexivity).
  eexists _, _, _. split; [|split; reflexivity]. unfold refresh_checks. repeat (split; [eassumption|]). eassumption.
Qed.

(** ** The direct grants *)

Lemma scope_refused_false c s :
  scope_refused c s = false -> s = "" \/ c_can_scope c FDirectGrant s = true.
Proof.
  unfold scope_refused. destruct (s =s? "") eqn:E; sdestruct; auto.
  destruct (c_can_scope c FDirectGrant s); simpl; auto.
Qed.

(** [ident h uid]: the calls [h] identify the user [uid]. *)
Definition direct_guard (r : request) (c : client) (ident : list event -> Z -> Prop) : guard :=
  fun h o =>
  match o with
  | OCreateInfo uid cid scope =>
      ident (calls h) uid /\ cid = c_id c /\ scope = form_value r "scope" /\ direct_checks r c
  | OCreateToken i b =>
      exists h0 uid info, i = Some info /\ b = true /\ ident h0 uid /\ direct_checks r c /\
        calls h =
          (h0 ++ [Ev (OCreateInfo uid (c_id c) (form_value r "scope")) (Some info, None)])%list
  | OSetHeader _ _ | OStatus _ | OBody _ | ORedirect _ => False
  | ORefresh _ _ | OFindSession _ | OFindByRefresh _ | OFindActiveInfo _ | ODisable _
  | OCreateSession _ _ | OFindClient _ => False
  | _ => True
  end.

Lemma password_grant_wp r c now :
  wp (direct_guard r c (password_ident r)) (fun tr x => http_ops tr = [] /\
     match x with
     | Done (inl rs) => all_good tr /\ direct_success r c (password_ident r) (calls tr) rs
     | Done (inr e) => refusal tr e
     | Panicked => False
     end) [] (password_grant r c now).
Proof.
  unfold_grants. wp_go; unfold refuse; try apply wp_ret; grant_end.
  all: unfold direct_guard; cbn beta iota; try exact I.
  all: repeat match goal with H : scope_refused _ _ = false |- _ => apply scope_refused_false in H end.
  all: try match goal with |- http_ops _ = [] /\ _ => split; [reflexivity|];
    split; [intros ev Hev; bad_event|] end.
  all: unfold password_ident, direct_checks, direct_success.
  all: try (repeat split; auto; fail).
  all: try match goal with |- context [Ev (OFindUser ?a ?b) (?z, None)] =>
      exists [Ev (OFindUser a b) (z, None)], z; repeat eexists; eauto end.
Qed.

Lemma client_credentials_wp r c now :
  wp (direct_guard r c (client_ident c)) (fun tr x => http_ops tr = [] /\
     match x with
     | Done (inl rs) => all_good tr /\ direct_success r c (client_ident c) (calls tr) rs
     | Done (inr e) => refusal tr e
     | Panicked => False
     end) [] (client_credentials r c now).
Proof.
  unfold_grants. wp_go; unfold refuse; try apply wp_ret; grant_end.
  all: unfold direct_guard; cbn beta iota; try exact I.
  all: repeat match goal with H : scope_refused _ _ = false |- _ => apply scope_refused_false in H
       | H : (_ <? _)%Z = false |- _ => apply Z.ltb_ge in H end.
  all: try match goal with |- http_ops _ = [] /\ _ => split; [reflexivity|];
    split; [intros ev Hev; bad_event|] end.
  all: unfold client_ident, direct_checks, direct_success.
  all: try (repeat split; auto; fail).
  all: exists []; repeat eexists; eauto.
Qed.

(** ** Assertions *)

(** Claims may only be recorded for a verified, current assertion; users are only
    looked up for an accepted one. *)
Definition jwt_guard (J : jwtlib) (r : request) (c : client) : guard := fun h o =>
  direct_guard r c (jwt_ident J r c) h o /\
  match o with
  | ORecord cid jti iat exp =>
      exists t now, verified J (form_value r "assertion") c t /\ current J now t /\
        calls h = [Ev OJwtNow now] /\ cid = c_id c /\ jti = claim_jti t /\ iat = claim_iat t /\
        jint (jt_claims t) "exp" = Some exp
  | OFindUserBySub sub =>
      exists t, accepted J (form_value r "assertion") c t (calls h) /\
        jstr "sub" (jt_claims t) = Some sub
  | OFindUser _ _ | OFindByAccess _ | OFindInfo _ _ => False
  | _ => True
  end.

Lemma cflags_current J now t :
  cf_expired (jl_claims J now (jt_claims t)) = false ->
  cf_iat (jl_claims J now (jt_claims t)) = false ->
  cf_nbf (jl_claims J now (jt_claims t)) = false -> current J now t.
Proof.
  unfold current. destruct (jl_claims J now (jt_claims t)); simpl; intros; subst; auto.
Qed.

Lemma verified_intro J raw c t k :
  jl_parse J raw = PToken t ->
  match c_assertion_key c (or_empty (jstr "alg" (jt_header t))) (or_empty (jstr "kid" (jt_header t))) with
  | Some k => @inr (option oauth_error) key k
  | None => inl None
  end = inr k ->
  jl_verify J raw k = true -> verified J raw c t.
Proof.
  intros H1 H2 H3. split; auto. exists k. unfold hdr.
  destruct (c_assertion_key c _ _); [injection H2 as ->|discriminate]. auto.
Qed.

Lemma jwt_grant_wp J r c now :
  wp (jwt_guard J r c) (fun tr x => http_ops tr = [] /\
     match x with
     | Done (inl rs) => all_good tr /\ direct_success r c (jwt_ident J r c) (calls tr) rs
     | Done (inr e) => refusal tr e
     | Panicked => False
     end) [] (jwt_grant J r c now).
Proof.
  unfold jwt_grant, jwt_parse, handle_assertion_error, grant_keyf, with_id. unfold_grants.
  wp_go; unfold refuse; try apply wp_ret.
  all: try match goal with H : match c_assertion_key ?c ?a ?k with _ => _ end = inl (Some _) |- _ =>
    destruct (c_assertion_key c a k); discriminate H end.
  all: grant_end.
  all: unfold jwt_guard, direct_guard; cbn beta iota; try (split; exact I).
  all: repeat match goal with H : scope_refused _ _ = false |- _ => apply scope_refused_false in H
       | H : (_ <? _)%Z = false |- _ => apply Z.ltb_ge in H end.
  all: try match goal with |- http_ops _ = [] /\ _ => split; [reflexivity|];
    split; [intros ev Hev; bad_event|] end.
  all: match goal with
    | Hk : _ = inr ?k, Hp : jl_parse ?J ?raw = PToken ?t, Hv : jl_verify ?J ?raw ?k = true |- _ =>
        pose proof (verified_intro _ _ _ _ _ Hp Hk Hv)
    end.
  all: match goal with
    | H1 : cf_expired _ = false, H2 : cf_iat _ = false, H3 : cf_nbf _ = false |- _ =>
        pose proof (cflags_current _ _ _ H1 H2 H3); clear H1 H2 H3
    end.
  - split; auto. exists t, x. split; [assumption|]. repeat split; auto.
  - split; auto. exists t. split; auto. exists x, z, x1.
    split; [assumption|]. split; [assumption|]. split; [assumption|].
    split; [congruence|]. split; [assumption|]. reflexivity.
  - split; [|exact I]. split; [|repeat split; auto].
    exists t. eexists _, s0. split; [auto|]. split; [|split; [eassumption|]].
    + exists x, z, x1.
      split; [assumption|]. split; [assumption|]. split; [assumption|].
      split; [congruence|]. split; [assumption|]. reflexivity.
    + reflexivity.
  - split; [|exact I]. eexists _, z0, a. split; [auto|]. split; [auto|]. split; [|split; [auto|]].
    + exists t. eexists _, s0. split; [auto|]. split; [|split; [eassumption|reflexivity]].
      exists x, z, x1.
      split; [assumption|]. split; [assumption|]. split; [assumption|].
      split; [congruence|]. split; [assumption|]. reflexivity.
    + reflexivity.
  - eexists _, z0, a, o4. split; [|split; [auto|]].
    + exists t. eexists _, s0. split; [auto|]. split; [|split; [eassumption|reflexivity]].
      exists x, z, x1.
      split; [assumption|]. split; [assumption|]. split; [assumption|].
      split; [congruence|]. split; [assumption|]. reflexivity.
    + split; reflexivity.
Qed.
