(** * More facts about the token endpoint: which credentials count, what a data
    failure leads to, and what is accepted. *)
From Coq Require Import Lia.
From Verif Require Import WpTac Utils OAuthError IdToken Assertion Grants TokenEndpoint
  TokenSpec UtilsFacts GrantFacts TokenFacts TokenProofs LogFacts Sha ShaFacts Demo TokenComplete.

Lemma status_event tr n : In n (statuses tr) ->
  exists t1 a t2, tr = (t1 ++ Ev (OStatus n) a :: t2)%list.
Proof.
  intros H. apply status_in in H. apply in_http in H; [|reflexivity].
  apply in_map_iff in H. destruct H as ([o a] & E & HI). simpl in E. subst o.
  apply in_split in HI. destruct HI as (t1 & t2 & ->). eauto.
Qed.

Lemma needs_authentication J te r tr res :
  exec (token_handler J te r) tr res ->
  forall t1 o a t2, tr = (t1 ++ Ev o a :: t2)%list -> grant_op o = true \/ o = OStatus 200 ->
  exists c ta rest, authenticated J te r c ta /\ t1 = (ta ++ rest)%list.
Proof.
  intros H t1 o a t2 H1 H2.
  destruct (token_needs_authentication _ _ _ _ _ H _ _ _ _ H1 H2) as (c & ta & rest & H3 & H4 & _).
  eauto.
Qed.

(** Secrets: any grant operation or success is preceded by the look-up of the
    presented id, with a matching secret and an allowed grant type. *)
Lemma secret_clients J te r tr res cid sec b :
  presented te r cid sec b -> exec (token_handler J te r) tr res ->
  forall t1 o a t2, tr = (t1 ++ Ev o a :: t2)%list -> grant_op o = true \/ o = OStatus 200 ->
  exists c rest, t1 = Ev (OFindClient cid) (Some c, None) :: rest /\
    c_match_secret c sec = true /\ c_can_grant c (form_value r "grant_type") = true.
Proof.
  intros HP He t1 o a t2 H1 H2.
  destruct (token_needs_authentication _ _ _ _ _ He _ _ _ _ H1 H2) as (c & ta & rest & H3 & H4 & H5).
  destruct H3 as [cid' sec' b' HP' HM|ca t sub evs HP' _ _].
  - destruct (presented_fun _ _ _ _ _ _ _ _ HP HP') as (-> & -> & ->).
    exists c, rest. split; [exact H4|]. split; [exact HM|]. apply H5. eauto.
  - exfalso. destruct HP' as (_ & HN & _). exact (HN _ _ _ HP).
Qed.

Lemma success_allowed J te r tr res cid sec b :
  presented te r cid sec b -> exec (token_handler J te r) tr res -> In 200%Z (statuses tr) ->
  exists c rest, tr = Ev (OFindClient cid) (Some c, None) :: rest /\
    c_match_secret c sec = true /\ c_can_grant c (form_value r "grant_type") = true.
Proof.
  intros HP He HI. destruct (status_event _ _ HI) as (t1 & a & t2 & E).
  destruct (secret_clients _ _ _ _ _ _ _ _ HP He _ _ _ _ E (or_intror eq_refl)) as (c & rest & H1 & H2).
  exists c, (rest ++ Ev (OStatus 200) a :: t2)%list. split; [|exact H2]. rewrite E, H1. reflexivity.
Qed.

Lemma header_only_not_presented te r :
  te_accept te = FromHeader -> basic_auth r = None -> forall cid sec b, ~ presented te r cid sec b.
Proof. intros H1 H2 cid sec b HP. destruct HP; congruence. Qed.

Lemma body_only_not_presented te r :
  te_accept te = FromHeaderAndPostBody -> basic_auth r = None ->
  post_form_value r "client_secret" = "" -> forall cid sec b, ~ presented te r cid sec b.
Proof. intros H1 H2 H3 cid sec b HP. destruct HP; congruence. Qed.

Lemma no_secret_no_client J te r tr res :
  (forall cid sec b, ~ presented te r cid sec b) -> exec (token_handler J te r) tr res ->
  (te_accept_assertion te = false -> data_calls tr = [] /\ ~ In 200%Z (statuses tr)) /\
  (forall t1 o a t2, tr = (t1 ++ Ev o a :: t2)%list -> grant_op o = true \/ o = OStatus 200 ->
   exists c ca t sub evs rest, presented_assertion te r ca /\ accepted J ca c t evs /\
     jstr "sub" (jt_claims t) = Some sub /\
     t1 = (Ev (OFindClient sub) (Some c, None) :: evs ++ rest)%list).
Proof.
  intros HN He. split.
  - intros HA. eapply no_credentials; eauto.
  - intros t1 o a t2 H1 H2.
    destruct (needs_authentication _ _ _ _ _ He _ _ _ _ H1 H2) as (c & ta & rest & H3 & H4).
    destruct H3 as [cid' sec' b' HP' HM|ca t sub evs HP' HS HA].
    + exfalso. exact (HN _ _ _ HP').
    + exists c, ca, t, sub, evs, rest. auto.
Qed.

Lemma header_only J te r tr res :
  te_accept te = FromHeader -> basic_auth r = None -> exec (token_handler J te r) tr res ->
  (te_accept_assertion te = false -> data_calls tr = [] /\ ~ In 200%Z (statuses tr)) /\
  (forall t1 o a t2, tr = (t1 ++ Ev o a :: t2)%list -> grant_op o = true \/ o = OStatus 200 ->
   exists c ca t sub evs rest, presented_assertion te r ca /\ accepted J ca c t evs /\
     jstr "sub" (jt_claims t) = Some sub /\
     t1 = (Ev (OFindClient sub) (Some c, None) :: evs ++ rest)%list).
Proof.
  intros H1 H2 He. apply (no_secret_no_client J te r tr res); auto. apply header_only_not_presented; auto.
Qed.

Lemma not_from_query J te r tr res :
  te_accept te = FromHeaderAndPostBody -> basic_auth r = None ->
  post_form_value r "client_secret" = "" -> exec (token_handler J te r) tr res ->
  (te_accept_assertion te = false -> data_calls tr = [] /\ ~ In 200%Z (statuses tr)) /\
  (forall t1 o a t2, tr = (t1 ++ Ev o a :: t2)%list -> grant_op o = true \/ o = OStatus 200 ->
   exists c ca t sub evs rest, presented_assertion te r ca /\ accepted J ca c t evs /\
     jstr "sub" (jt_claims t) = Some sub /\
     t1 = (Ev (OFindClient sub) (Some c, None) :: evs ++ rest)%list).
Proof.
  intros H1 H2 H3 He. apply (no_secret_no_client J te r tr res); auto. apply body_only_not_presented; auto.
Qed.

Lemma header_wins J te r tr res cid sec :
  basic_auth r = Some (cid, sec) -> exec (token_handler J te r) tr res ->
  forall t1 o a t2, tr = (t1 ++ Ev o a :: t2)%list -> grant_op o = true \/ o = OStatus 200 ->
  exists c rest, t1 = Ev (OFindClient cid) (Some c, None) :: rest /\
    c_match_secret c sec = true /\ c_can_grant c (form_value r "grant_type") = true.
Proof. intros H. apply (secret_clients J te r tr res cid sec true). constructor. exact H. Qed.

(** ** Failures of the data layer *)

Lemma data_failure_answer J te r tr res ev f :
  only_bundled J te -> r_method r = "POST" -> exec (token_handler J te r) tr res ->
  In ev tr -> data_failure ev = Some f ->
  res = Done tt /\
  exists st e, error_answer te st e (http_ops tr) /\
    match f with
    | Refused => (400 <= st < 500)%Z
    | Broken => st = 500%Z /\ oe_type e = EServerError
    end.
Proof.
  intros HB HM He Hi Hf. pose proof (token_answers _ _ _ _ _ HB HM He) as H.
  destruct res as [[]|].
  - split; [reflexivity|]. destruct H as [(rs & H)|(st & e & H1 & H2 & H3 & H4)].
    + exfalso.
      assert (HI : In 200%Z (statuses tr)).
      { apply status_in. rewrite H. unfold success_answer, answer. simpl. auto 6. }
      destruct (success_run _ _ _ _ _ HB He HI)
         as (h & c & ta & now & th & rs' & l & _ & _ & _ & _ & _ & _ & _ & _ & _ & _ & HG & _).
      rewrite (HG ev Hi) in Hf. discriminate.
    + exists st, e. split; [exact H1|]. destruct f.
      * split; [lia|]. eapply H3; eauto.
      * eapply H4; eauto.
  - destruct H as (-> & _). destruct Hi.
Qed.

(** ** Completeness *)

Ltac open_handler :=
  repeat match goal with
  | |- context [if ?b =s? "" then _ else _] =>
      let E := fresh "E" in destruct (b =s? "") eqn:E; sdestruct; [congruence|]
  end.

Lemma refresh_complete r c now old info tok :
  refresh_checks r c now old info ->
  exec (refresh_token r c now)
    (refresh_found r old info ++ [Ev (ORefresh info old) (Some tok, None)])%list
    (Done (inl (Response (ot_access tok) (ot_access_expires tok) (ot_refresh tok) (ai_scope info) ""))).
Proof.
  intros (H1 & H2 & H3 & H4). unfold refresh_token.
  open_handler. unfold refresh_found. cbn [bind call app]. apply exec_vis. cbn [dcheck].
  destruct (add64 (ot_refresh_expires old) (ot_created old) <? now)%Z eqn:E2.
  { apply Z.ltb_lt in E2. lia. }
  cbn [bind call]. apply exec_vis. cbn [dcheck]. rewrite H3, seqb_refl. cbn [negb].
  apply include_word in H4. unfold include_offline, OfflineAccess. rewrite H4. cbn [negb].
  cbn [bind call]. apply exec_vis. cbn [dcheck]. constructor.
Qed.

Lemma scope_not_refused r c : direct_checks r c -> scope_refused c (form_value r "scope") = false.
Proof.
  intros [H|H]; unfold scope_refused; rewrite H; [reflexivity|].
  destruct (form_value r "scope" =s? ""); reflexivity.
Qed.

Lemma direct_tail_complete r c uid info tok :
  exec (direct_tail c uid (form_value r "scope")) (direct_calls r c uid info tok)
    (Done (inl (direct_response info tok))).
Proof.
  unfold direct_tail, direct_calls. cbn [bind call]. apply exec_vis. cbn [dcheck bind call].
  apply exec_vis. cbn [dcheck]. constructor.
Qed.

Lemma password_complete r c now h uid info tok :
  password_ident r h uid -> direct_checks r c ->
  exec (password_grant r c now) (h ++ direct_calls r c uid info tok)%list
    (Done (inl (direct_response info tok))).
Proof.
  intros (H1 & H2 & ->) H3. unfold password_grant. open_handler.
  rewrite (scope_not_refused r c H3). cbn [bind call app]. apply exec_vis. cbn [zcheck].
  apply direct_tail_complete.
Qed.

Lemma client_complete r c now h uid info tok :
  client_ident c h uid -> direct_checks r c ->
  exec (client_credentials r c now) (h ++ direct_calls r c uid info tok)%list
    (Done (inl (direct_response info tok))).
Proof.
  intros (-> & -> & H2) H3. unfold client_credentials.
  destruct (c_owner c <? 0)%Z eqn:E. { apply Z.ltb_lt in E. lia. }
  rewrite (scope_not_refused r c H3). apply direct_tail_complete.
Qed.

Lemma endpoint_complete J te r h cid sec b c now th rs :
  r_method r = "POST" -> form_value r "grant_type" <> "" ->
  registered te (form_value r "grant_type") h ->
  presented te r cid sec b -> c_match_secret c sec = true ->
  c_can_grant c (form_value r "grant_type") = true ->
  exec (h r c now) th (Done (inl rs)) ->
  exists l, http_ops l = success_answer rs /\ calls l = [] /\
    exec (token_handler J te r)
      (Ev (OFindClient cid) (Some c, None) :: Ev ONow now :: th ++ l)%list (Done tt).
Proof.
  intros HM HG HR HP HS HC He. unfold token_handler. rewrite HM, seqb_refl. cbn [negb].
  destruct (form_value r "grant_type" =s? "") eqn:E; sdestruct; [congruence|].
  apply find_handler_some in HR. rewrite HR, (presented_find _ _ _ _ _ HP).
  unfold validate_by_secret. cbn [bind call].
  eexists. split; [|split]; [| |apply exec_vis; cbn [dcheck]; rewrite HS, HC; cbn [negb bind];
    unfold execute_grant; cbn [bind call]; apply exec_vis; apply exec_bind; left;
    do 3 eexists; split; [exact He|split;[|reflexivity]];
    unfold te_success, set_common_headers, logm, call; cbn [bind]; repeat apply exec_vis; constructor].
  - reflexivity.
  - reflexivity.
  Unshelve. all: exact tt.
Qed.

(** ** PKCE with S256 from a leaked verifier *)
Lemma pkce_s256_from_leaked_request :
  forall J r c now sess info tok,
    form_value r "redirect_uri" <> "" -> form_value r "code" <> "" ->
    ai_client info = c_id c -> as_redirect sess = form_value r "redirect_uri" ->
    as_verifier sess <> "" -> ~ has_word (ai_scope info) "openid" ->
    form_value r "code_challenge_method" = "S256" ->
    form_value r "code_challenge" = rfc4648_url (sha256 (as_verifier sess)) ->
    exists tr rs, exec (authorization_code J r c now) tr (Done (inl rs)) /\ rs_access rs = ot_access tok.
Proof.
  intros J r c now sess info tok H1 H2 H3 H4 H5 H6 H7 H8.
  eexists _, _. split.
  - apply (code_exchange_complete J r c now sess info tok); [|intros _|assumption].
    + repeat split; auto. right. right. auto.
    + rewrite H8. apply rfc4648_nonempty. intros E.
      pose proof (sha256_length (as_verifier sess)) as L. rewrite E in L. discriminate.
  - reflexivity.
Qed.

(** ** ID tokens of the code exchange *)
Lemma code_id_token_bound J te r tr res :
  only_bundled J te -> registered te (form_value r "grant_type") (authorization_code J) ->
  exec (token_handler J te r) tr res -> In 200%Z (statuses tr) ->
  exists c now th rs sess info,
    served J te r tr c now th rs /\
    In (Ev (OFindSession (form_value r "code")) (Some sess, None)) th /\
    In (Ev (OFindActiveInfo (as_auth_id sess)) (Some info, None)) th /\
    ai_client info = c_id c /\
    (has_word (ai_scope info) "openid" ->
       exists iss cs, In (Ev OIssuer iss) th /\
         id_claims cs iss (c_id c) (ai_subject info) (as_nonce sess)
           (add64 now (as_idt_expires sess)) (as_auth_time sess) now None None /\
         signed_for J c cs (rs_id rs)) /\
    (~ has_word (ai_scope info) "openid" -> rs_id rs = "").
Proof.
  intros HB HR He HI.
  destruct (code_exchange_sound _ _ _ _ _ HB HR He HI) as (c & now & th & rs & HS & HC).
  destruct HC as (sess & info & tok & HK & _ & _ & _ & _ & rest & HD & HI').
  assert (HIn : forall e, In e (data_calls th) -> In e th).
  { intros e H. apply filter_In in H. tauto. }
  exists c, now, th, rs, sess, info. split; [exact HS|].
  split; [apply HIn; rewrite HD; simpl; auto|].
  split; [apply HIn; rewrite HD; simpl; auto|].
  destruct HK as (_ & _ & HC & _). split; [exact HC|].
  split.
  - intros HW. destruct HI' as [(_ & iss & cs & HR' & H1 & H2)|(HN & _)]; [|contradiction].
    exists iss, cs. split; [apply HIn; rewrite HD, HR'; simpl; auto 6|].
    rewrite <- HC. auto.
  - intros HW. destruct HI' as [(HN & _)|(_ & _ & H)]; [contradiction|exact H].
Qed.

(** ** Logs *)
Lemma endpoint_log_whitelist J te r tr res : only_bundled J te ->
  exec (token_handler J te r) tr res ->
  forall t1 lv e attrs a t2 k v, tr = (t1 ++ Ev (OLog lv e attrs) a :: t2)%list -> In (k, v) attrs ->
  endpoint_log_source J te r t1 k v.
Proof.
  intros HB He t1 lv e attrs a t2 k v Heq Hi.
  pose proof (exec_guard _ _ _ _ _ _ _ _ _ (endpoint_logs J te r HB) He Heq) as HG.
  simpl in HG. rewrite Forall_forall in HG. exact (HG _ Hi).
Qed.
