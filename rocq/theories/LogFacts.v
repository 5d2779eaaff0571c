(** * What grants log, and that rejected assertion claims end a grant. *)
From Coq Require Import Lia.
From Verif Require Import WpTac Utils OAuthError IdToken Assertion Grants TokenEndpoint
  TokenSpec UtilsFacts GrantFacts TokenFacts TokenProofs.

Definition log_guard (J : jwtlib) (r : request) (c : client) : guard := fun h o =>
  match o with
  | OLog _ _ attrs => Forall (fun p => log_source J r c (fst p) (snd p)) attrs
  | _ => True
  end.

(** Claims whose recording was refused (or failed). *)
Definition bad_record (e : event) : bool :=
  match ev_op e with
  | ORecord _ _ _ _ => match data_failure e with Some _ => true | None => false end
  | _ => false
  end.

Definition record_post {A} : post A := fun tr _ =>
  existsb bad_record tr = true -> existsb (fun e => grant_op (ev_op e)) tr = false.

Ltac wp_end := lazymatch goal with |- wp _ _ _ _ => apply wp_ret | |- _ => idtac end.

Ltac one_source :=
  cbn [fst snd]; unfold log_source;
  first [ left; split; reflexivity
        | right; left; split; [reflexivity | simpl; tauto]
        | right; right; left; split; [reflexivity | simpl; tauto]
        | right; right; right; left; split; [simpl; tauto | reflexivity]
        | right; right; right; right; eexists; split; [eassumption|];
          first [ left; split; [reflexivity|eassumption]
                | right; left; split; reflexivity
                | right; right; left; split; reflexivity
                | right; right; right; eexists; split; [reflexivity|]; split; [eassumption|reflexivity] ] ].
Ltac log_leaf :=
  lazymatch goal with
  | |- log_guard _ _ _ _ _ => unfold log_guard; cbn beta iota; repeat (apply Forall_cons || apply Forall_nil); one_source
  | |- record_post _ _ => hist; unfold record_post; simpl; intros; first [discriminate | reflexivity]
  end.

Lemma handler_logs J h r c now : bundled J h ->
  wp (log_guard J r c) record_post [] (h r c now).
Proof.
  intros [].
  - unfold_grants. wp_go; unfold refuse; wp_end; log_leaf.
  - unfold_grants. wp_go; unfold refuse; wp_end; log_leaf.
  - unfold_grants. wp_go; unfold refuse; wp_end; log_leaf.
  - unfold_grants. wp_go; unfold refuse; wp_end; log_leaf.
  - unfold jwt_grant, jwt_parse, handle_assertion_error, grant_keyf, with_id. unfold_grants.
    wp_go; unfold refuse; wp_end; log_leaf.
Qed.

(** ** What the endpoint logs *)

Definition te_log_guard (J : jwtlib) (te : token_endpoint) (r : request) : guard := fun h o =>
  match o with
  | OLog _ _ attrs => Forall (fun p => endpoint_log_source J te r h (fst p) (snd p)) attrs
  | _ => True
  end.

(** A guard that only sees the operation and a set of facts that persist. *)
Lemma wp_weaken {A} (G G' : guard) (Q : post A) p : forall h h',
  wp G Q h p ->
  (forall t o, G (h ++ t)%list o -> G' (h' ++ t)%list o) ->
  wp G' (fun _ _ => True) h' p.
Proof.
  induction p as [a| |o k IH]; intros h h' Hw HG; simpl in *; auto.
  destruct Hw as [H1 H2]. split.
  - specialize (HG [] o). rewrite !app_nil_r in HG. auto.
  - intros x. apply (IH x _ (h' ++ [Ev o x])%list (H2 x)).
    intros t o'. rewrite <- !app_assoc. apply HG.
Qed.

Lemma execute_grant_logs J te r c h cid e hist : bundled J h ->
  In (Ev (OFindClient cid) (Some c, e)) hist ->
  wp (te_log_guard J te r) (fun _ _ => True) hist (execute_grant te r c h).
Proof.
  intros Hh Hin. unfold execute_grant. cbn [bind call]. apply wp_vis; [exact I|]. intros now.
  apply wp_bind. eapply wp_post; [|eapply wp_extends, wp_weaken; [apply (handler_logs J h r c now Hh)|]].
  - intros h1 [[rs|er]|] [[t ->] _]; auto.
    + unfold te_success, set_common_headers, logm, call. cbn [bind]. apply wp_vis.
      * simpl. constructor; [|constructor]. repeat right. exists cid, c, e. split.
        -- rewrite !in_app_iff. auto.
        -- left. auto.
      * intros u0. wp_go; exact I.
    + unfold te_fail, set_common_headers. wp_go; exact I.
  - intros t o. destruct o; auto. unfold log_guard, te_log_guard. apply Forall_impl.
    intros [k v] HS. repeat right. exists cid, c, e. split; [|exact HS].
    rewrite !in_app_iff. auto.
Qed.

Ltac te_source :=
  cbn [fst snd]; unfold endpoint_log_source;
  first [ left; split; reflexivity
        | right; left; split; reflexivity
        | right; right; left; split; reflexivity
        | right; right; right; left; split; [reflexivity | solve [auto]]
        | right; right; right; right; left; split; reflexivity
        | right; right; right; right; right; left; split; reflexivity
        | right; right; right; right; right; right; left; split; [reflexivity | solve [eauto]]
        | right; right; right; right; right; right; right; left; split; [reflexivity|congruence]
        | right; right; right; right; right; right; right; right; left; eexists; split; [eassumption|];
          first [ left; split; [reflexivity|eassumption]
                | right; left; split; reflexivity
                | right; right; left; split; reflexivity
                | right; right; right; eexists; split; [reflexivity|]; split; [eassumption|reflexivity] ]
        | right; right; right; right; right; right; right; right; right;
          do 3 eexists; split; [ hist; simpl; left; reflexivity | one_source ] ].
Ltac te_log_leaf :=
  lazymatch goal with
  | |- te_log_guard _ _ _ _ _ => unfold te_log_guard; cbn beta iota; repeat (apply Forall_cons || apply Forall_nil); te_source
  | |- True => exact I
  end.

Lemma validate_secret_logs J te r cid sec b : presented te r cid sec b ->
  wp (te_log_guard J te r) (fun h x => match x with
    | Done (Some c) => exists e, In (Ev (OFindClient cid) (Some c, e)) h
    | _ => True end) [] (validate_by_secret te r (form_value r "grant_type") cid sec b).
Proof.
  intros HP. unfold validate_by_secret. unfold_te.
  wp_go; try exact I; try te_log_leaf. hist. exists None. simpl. auto.
Qed.

Lemma validate_assertion_logs J te r ca : presented_assertion te r ca ->
  wp (te_log_guard J te r) (fun h x => match x with
    | Done (Some c) => exists cid e, In (Ev (OFindClient cid) (Some c, e)) h
    | _ => True end) [] (validate_by_assertion J te ca).
Proof.
  intros (_ & _ & HF & _). subst ca.
  unfold validate_by_assertion, jwt_parse, handle_assertion_error, te_keyf, with_id.
  unfold_te.
  wp_go; try exact I; try te_log_leaf.
  hist. do 2 eexists. simpl. left. reflexivity.
Qed.

Lemma endpoint_logs J te r : only_bundled J te ->
  wp (te_log_guard J te r) (fun _ _ => True) [] (token_handler J te r).
Proof.
  intros HB. unfold token_handler.
  destruct (negb (r_method r =s? "POST")).
  { wp_go; te_log_leaf. }
  destruct (form_value r "grant_type" =s? "") eqn:E.
  { unfold te_fail, set_common_headers. wp_go; te_log_leaf. }
  destruct (find_handler (form_value r "grant_type") (te_handlers te)) as [h|] eqn:EH.
  2: { unfold te_fail, set_common_headers. wp_go; te_log_leaf. }
  assert (Hh : bundled J h).
  { apply find_handler_some in EH. eapply registered_bundled; eauto. }
  pose proof (find_client_credential_spec te r) as HS.
  destruct (find_client_credential te r) as [[[cid sec] b]|].
  { apply wp_bind. eapply wp_post; [|apply (validate_secret_logs J te r cid sec b HS)].
    intros h1 [[c|]|] H; simpl; auto. destruct H as [e H]. eapply execute_grant_logs; eauto. }
  destruct (te_accept_assertion te) eqn:EA.
  2: { unfold te_fail_auth, set_common_headers. wp_go; te_log_leaf. }
  destruct (find_client_assertion r) as [ca|] eqn:EC.
  2: { unfold te_fail_auth, set_common_headers. wp_go; te_log_leaf. }
  assert (HP : presented_assertion te r ca).
  { unfold find_client_assertion in EC.
    destruct (form_value r "client_assertion" =s? "") eqn:E1; sdestruct; [discriminate|].
    destruct (form_value r "client_assertion_type" =s? ClientAssertionTypeJWT) eqn:E2; sdestruct;
      cbn [negb andb] in EC; [|discriminate]. injection EC as <-.
    repeat split; auto. }
  apply wp_bind. eapply wp_post; [|apply (validate_assertion_logs J te r ca HP)].
  intros h1 [[c|]|] H; simpl; auto. destruct H as (cid & e & H). eapply execute_grant_logs; eauto.
Qed.

(** ** The secret influences nothing but its own verification *)

Lemma bundled_indep J h r r' c now : bundled J h -> same_but_secret r r' -> h r c now = h r' c now.
Proof.
  intros HB (_ & HF & _).
  destruct HB; unfold authorization_code, refresh_token, password_grant, client_credentials,
    jwt_grant, pkce_check;
  repeat match goal with |- context [form_value r ?k] => rewrite (HF k) by discriminate end;
  reflexivity.
Qed.

Lemma presented_find te r cid sec b :
  presented te r cid sec b -> find_client_credential te r = Some (cid, sec, b).
Proof.
  intros H. pose proof (find_client_credential_spec te r) as HS.
  destruct (find_client_credential te r) as [[[cid' sec'] b']|].
  - destruct (presented_fun _ _ _ _ _ _ _ _ HS H) as (-> & -> & ->). auto.
  - exfalso. exact (HS _ _ _ H).
Qed.

Lemma exec_ext {A B} (p : prog A) (f g : A -> prog B) tr r :
  (forall a tr r, exec (f a) tr r -> exec (g a) tr r) -> exec (bind p f) tr r -> exec (bind p g) tr r.
Proof.
  intros H He. apply exec_bind in He. apply exec_bind.
  destruct He as [(t1 & t2 & a & H1 & H2 & ->)|He]; [left|right; auto].
  exists t1, t2, a. auto.
Qed.

Lemma execute_grant_indep J te r r' c h tr res : bundled J h -> same_but_secret r r' ->
  exec (execute_grant te r c h) tr res -> exec (execute_grant te r' c h) tr res.
Proof.
  intros Hh HS He. unfold execute_grant in *.
  apply exec_inv in He. destruct He as (now & tr2 & -> & He). apply exec_vis. cbn [bind] in *.
  rewrite <- (bundled_indep J h r r' c now Hh HS). exact He.
Qed.

Lemma secret_independence J te r r' cid sec sec' b tr res :
  only_bundled J te -> same_but_secret r r' ->
  presented te r cid sec b -> presented te r' cid sec' b ->
  exec (token_handler J te r) tr res ->
  (forall c, In (Ev (OFindClient cid) (Some c, None)) tr -> c_match_secret c sec = c_match_secret c sec') ->
  exec (token_handler J te r') tr res.
Proof.
  intros HB HS HP HP' He HM. pose proof HS as (HS1 & HS2 & HS3).
  unfold token_handler in *. rewrite <- HS1.
  rewrite <- (HS2 "grant_type") by discriminate.
  destruct (negb (r_method r =s? "POST")); auto.
  destruct (form_value r "grant_type" =s? ""); auto.
  destruct (find_handler (form_value r "grant_type") (te_handlers te)) as [h|] eqn:EH; auto.
  assert (Hh : bundled J h).
  { apply find_handler_some in EH. eapply registered_bundled; eauto. }
  apply presented_find in HP. apply presented_find in HP'. rewrite HP in He. rewrite HP'.
  apply (exec_ext _ _ (fun oc => match oc with Some c => execute_grant te r' c h | None => Ret tt end)) in He.
  2: { intros [c|] t x; auto. apply (execute_grant_indep J); auto. }
  unfold validate_by_secret in *. cbn [bind call] in He |- *.
  apply exec_inv in He. destruct He as (x & tr' & -> & He). apply exec_vis.
  destruct x as [[c|] [[| | |]|]]; cbn [dcheck] in *; auto.
  assert (EM : c_match_secret c sec = c_match_secret c sec').
  { apply HM. simpl. auto. }
  rewrite <- EM.
  rewrite <- (HS3 "REMOTE_ADDR"), <- (HS3 "X-FORWARDED-FOR") by discriminate.
  exact He.
Qed.

(** ** C20 *)

Lemma no_data_in l : data_calls l = [] -> forall ev, In ev l -> is_data (ev_op ev) = false.
Proof.
  intros H ev Hi. destruct (is_data (ev_op ev)) eqn:E; auto. exfalso.
  assert (HIn : In ev (data_calls l)) by (apply filter_In; auto). rewrite H in HIn. destruct HIn.
Qed.

Lemma grant_op_data o : is_data o = false -> grant_op o = false.
Proof. destruct o; simpl; auto. Qed.

Lemma replay_refused J te r tr res ev :
  only_bundled J te -> exec (token_handler J te r) tr res -> In ev tr ->
  (exists cid jti iat exp, ev_op ev = ORecord cid jti iat exp) -> data_failure ev <> None ->
  (forall e, In e tr -> grant_op (ev_op e) = false) /\ ~ In 200%Z (statuses tr).
Proof.
  intros HB He HIn (cid & jti & iat & exp & Hop) Hf. split.
  2: { intros HI. destruct (success_run _ _ _ _ _ HB He HI)
         as (h & c & ta & now & th & rs & l & H1 & H2 & H3 & H4 & H5 & H6 & H7 & H8 & H9 & H10 & H11 & _).
       apply Hf. auto. }
  destruct (token_handler_cases _ _ _ _ _ He) as [HS|(h & c & ta & tg & HG)].
  - destruct HS as [(_ & _ & H)|[(_ & _ & H)|(_ & _ & H & _)]].
    + intros e Hi. apply (in_map ev_op) in Hi. change (In (ev_op e) (ops tr)) in Hi. rewrite H in Hi.
      destruct Hi as [<-|[<-|[]]]; auto.
    + apply refused_ops in H. tauto.
    + subst. destruct HIn.
  - destruct HG as (_ & _ & HR & HA & HC & Hg & ->).
    destruct (authenticated_ops _ _ _ _ _ HA) as (HA1 & HA2 & HA3 & _).
    pose proof (registered_bundled _ _ _ _ HB HR) as Hh.
    destruct (execute_grant_cases _ _ _ _ _ _ Hg) as (now & HX).
    assert (HX' : exists th x l2, exec (h r c now) th x /\ tg = (Ev ONow now :: th ++ l2)%list /\
                    data_calls l2 = []).
    { destruct HX as [(th & rs & H1 & _ & l2 & H2 & H3 & _)
                     |[(th & e & H1 & _ & l2 & H2 & H3 & _)|(th & H1 & _ & H2)]].
      - exists th, (Done (inl rs)), l2. auto.
      - exists th, (Done (inr e)), l2. auto.
      - exists th, Panicked, []. rewrite app_nil_r. auto. }
    destruct HX' as (th & x & l2 & H1 & -> & H3). clear HX.
    pose proof (no_data_in _ H3) as H4.
    assert (HT : In ev th).
    { rewrite in_app_iff in HIn. simpl in HIn. rewrite in_app_iff in HIn.
      destruct HIn as [HI|[HI|[HI|HI]]]; auto.
      - exfalso. apply Hf. auto.
      - subst ev. discriminate.
      - apply H4 in HI. rewrite Hop in HI. discriminate. }
    pose proof (wp_exec _ _ _ _ _ (handler_logs J h r c now Hh) H1) as HP.
    unfold record_post in HP.
    assert (HE : existsb bad_record th = true).
    { apply existsb_exists. exists ev. split; auto. unfold bad_record. rewrite Hop.
      destruct (data_failure ev); congruence. }
    specialize (HP HE).
    intros e Hi. rewrite in_app_iff in Hi. simpl in Hi. rewrite in_app_iff in Hi.
    destruct Hi as [Hi|[<-|[Hi|Hi]]]; auto.
    + destruct (grant_op (ev_op e)) eqn:E; auto. exfalso.
      assert (HE2 : existsb (fun e => grant_op (ev_op e)) th = true).
      { apply existsb_exists. exists e. auto. }
      congruence.
    + apply grant_op_data. auto.
Qed.

(** ** C19 *)

Lemma malformed_panics J te r h ca :
  r_method r = "POST" -> form_value r "grant_type" <> "" ->
  registered te (form_value r "grant_type") h ->
  presented_assertion te r ca -> jl_parse J ca = PMalformed ->
  forall tr res, exec (token_handler J te r) tr res <-> tr = [] /\ res = Panicked.
Proof.
  intros HM HG HR (HA & HN & HC1 & HC2 & HC3) HP tr res. unfold token_handler.
  destruct (r_method r =s? "POST") eqn:E; sdestruct; [|congruence]. cbn [negb].
  destruct (form_value r "grant_type" =s? "") eqn:E2; sdestruct; [congruence|].
  apply find_handler_some in HR. rewrite HR.
  pose proof (find_client_credential_spec te r) as HS.
  destruct (find_client_credential te r) as [[[cid sec] b]|].
  { exfalso. exact (HN _ _ _ HS). }
  rewrite HA. unfold find_client_assertion. rewrite HC3, HC1.
  destruct (ca =s? "") eqn:E3; sdestruct; [congruence|].
  change (("urn:ietf:params:oauth:client-assertion-type:jwt-bearer" =s? ClientAssertionTypeJWT)) with true.
  cbn [negb andb]. unfold validate_by_assertion, jwt_parse. rewrite HP. cbn [bind handle_assertion_error with_id].
  split.
  - intros H. apply exec_inv in H. auto.
  - intros [-> ->]. constructor.
Qed.
