(** * Proofs of the properties of the token endpoint. *)
From Coq Require Import Lia.
From Verif Require Import WpTac Utils OAuthError IdToken Assertion Grants TokenEndpoint
  TokenSpec UtilsFacts GrantFacts TokenFacts.

(** ** Lists of events *)

Lemma app_split {A} (t1 : list A) e t2 ta tg :
  (t1 ++ e :: t2 = ta ++ tg)%list ->
  (exists l, t1 = ta ++ l /\ tg = l ++ e :: t2)%list \/ In e ta.
Proof.
  revert ta. induction t1 as [|x t1 IH]; intros [|y ta] H; simpl in *.
  - left. exists []. auto.
  - injection H as -> H. auto.
  - left. exists (x :: t1). auto.
  - injection H as -> H. destruct (IH _ H) as [(l & -> & ->)|HI]; eauto.
Qed.

Lemma data_calls_app a b : data_calls (a ++ b) = (data_calls a ++ data_calls b)%list.
Proof. apply filter_app. Qed.
Lemma calls_app a b : calls (a ++ b) = (calls a ++ calls b)%list.
Proof. apply filter_app. Qed.
Lemma ops_app a b : ops (a ++ b) = (ops a ++ ops b)%list.
Proof. apply map_app. Qed.
Lemma http_ops_app a b : http_ops (a ++ b) = (http_ops a ++ http_ops b)%list.
Proof. unfold http_ops. rewrite ops_app. apply filter_app. Qed.
Lemma statuses_app a b : statuses (a ++ b) = (statuses a ++ statuses b)%list.
Proof. unfold statuses. rewrite ops_app, flat_map_app. auto. Qed.
Lemma logged_app a b : logged (a ++ b) = (logged a ++ logged b)%list.
Proof. unfold logged. rewrite ops_app, flat_map_app. auto. Qed.

Definition status_of (o : op) : list Z := match o with OStatus n => [n] | _ => [] end.

Lemma statuses_http tr : statuses tr = flat_map status_of (http_ops tr).
Proof.
  unfold statuses, http_ops. induction (ops tr) as [|o l IH]; simpl; auto.
  destruct o; simpl; rewrite ?IH; auto.
Qed.

Lemma status_in tr n : In n (statuses tr) <-> In (OStatus n) (http_ops tr).
Proof.
  rewrite statuses_http. induction (http_ops tr) as [|o l IH]; simpl; [tauto|].
  rewrite in_app_iff, IH.
  assert (E : In n (status_of o) <-> o = OStatus n).
  { destruct o; simpl; split; intros H; try tauto; try discriminate.
    - destruct H as [->|[]]. auto.
    - injection H as ->. auto. }
  rewrite E. tauto.
Qed.

Lemma in_http tr o : is_http o = true -> (In o (http_ops tr) <-> In o (ops tr)).
Proof. intros H. unfold http_ops. rewrite filter_In. tauto. Qed.

Lemma answer_status hs st b : flat_map status_of (answer hs st b) = [st].
Proof.
  unfold answer. rewrite flat_map_app. simpl.
  induction hs as [|x hs IH]; simpl; auto.
Qed.

Lemma error_answer_status te st e o : error_answer te st e o -> flat_map status_of o = [st].
Proof. intros (e' & _ & ->). apply answer_status. Qed.

Lemma http_none_status tr : http_ops tr = [] -> statuses tr = [].
Proof. intros H. rewrite statuses_http, H. auto. Qed.

(** ** Authentication events *)

Lemma authenticated_ops J te r c ta : authenticated J te r c ta ->
  http_ops ta = [] /\ all_good ta /\ (forall ev, In ev ta -> grant_op (ev_op ev) = false) /\
  logged ta = [].
Proof.
  intros [cid sec b H1 H2|ca t sub evs H1 H2 (now & exp & iss & H3 & H4 & H5 & H6 & H7 & ->)].
  - repeat split; auto; intros ev [<-|[]]; auto.
  - repeat split; auto; intros ev [<-|[<-|[<-|[<-|[]]]]]; auto.
Qed.

Lemma refused_ops te tr : refused te tr ->
  (forall ev, In ev tr -> grant_op (ev_op ev) = false) /\ ~ In 200%Z (statuses tr).
Proof.
  intros [H1 (st & e & H2 & H3 & _)]. split.
  - intros ev Hi. rewrite forallb_forall in H1. specialize (H1 (ev_op ev) (in_map _ _ _ Hi)).
    destruct (ev_op ev); simpl in *; congruence.
  - rewrite statuses_http, (error_answer_status _ _ _ _ H2). intros [H|[]]. lia.
Qed.

(** ** Bundled handlers *)

Lemma bundled_run J h r c now th x : bundled J h -> exec (h r c now) th x ->
  http_ops th = [] /\
  match x with
  | Done (inl rs) => all_good th
  | Done (inr e) => refusal th e
  | Panicked => False
  end.
Proof.
  intros [] H;
  [ apply (wp_exec _ _ _ _ _ (authorization_code_wp _ _ _ _)) in H
  | apply (wp_exec _ _ _ _ _ (refresh_token_wp _ _ _)) in H
  | apply (wp_exec _ _ _ _ _ (password_grant_wp _ _ _)) in H
  | apply (wp_exec _ _ _ _ _ (client_credentials_wp _ _ _)) in H
  | apply (wp_exec _ _ _ _ _ (jwt_grant_wp _ _ _ _)) in H ];
  destruct H as [H1 H2]; split; auto; destruct x as [[?|?]|]; tauto.
Qed.

Lemma registered_bundled J te gt h : only_bundled J te -> registered te gt h -> bundled J h.
Proof.
  intros H (l & e & H1 & _). apply (H gt). rewrite H1. apply in_or_app. simpl. auto.
Qed.

(** ** C01 *)

Lemma token_needs_authentication J te r tr res :
  exec (token_handler J te r) tr res ->
  forall t1 o a t2, tr = (t1 ++ Ev o a :: t2)%list -> grant_op o = true \/ o = OStatus 200 ->
  exists c ta rest, authenticated J te r c ta /\ t1 = (ta ++ rest)%list /\
    ((exists cid sec b, presented te r cid sec b) -> c_can_grant c (form_value r "grant_type") = true).
Proof.
  intros He t1 o a t2 -> Ho.
  assert (HIn : In (Ev o a) (t1 ++ Ev o a :: t2)) by (apply in_or_app; simpl; auto).
  destruct (token_handler_cases _ _ _ _ _ He) as [HS|(h & c & ta & tg & HG)].
  - exfalso. destruct HS as [(_ & _ & H)|[(_ & _ & H)|(_ & _ & H & _)]].
    + assert (HI : In o (ops (t1 ++ Ev o a :: t2))) by (apply (in_map ev_op) in HIn; auto).
      rewrite H in HI. destruct HI as [<-|[<-|[]]]; destruct Ho as [Ho|Ho]; simpl in Ho; discriminate.
    + apply refused_ops in H. destruct H as [H1 H2]. destruct Ho as [Ho|Ho].
      * apply H1 in HIn. simpl in HIn. congruence.
      * subst. apply H2. apply status_in. apply in_http; auto. apply (in_map ev_op) in HIn. auto.
    + destruct t1; discriminate.
  - destruct HG as (_ & _ & _ & HA & HC & _ & Heq).
    destruct (app_split _ _ _ _ _ Heq) as [(l & -> & _)|HI].
    + exists c, ta, l. auto.
    + exfalso. apply authenticated_ops in HA. destruct HA as (H1 & _ & H2 & _).
      destruct Ho as [Ho|Ho].
      * apply H2 in HI. simpl in HI. congruence.
      * subst. apply (in_map ev_op) in HI. apply (in_http _ (OStatus 200) eq_refl) in HI.
        rewrite H1 in HI. destruct HI.
Qed.

(** ** C02 *)

Lemma only_post J te r tr res :
  r_method r <> "POST" -> exec (token_handler J te r) tr res ->
  res = Done tt /\ data_calls tr = [] /\ http_ops tr = [OStatus 405].
Proof.
  intros HM He. unfold token_handler in He.
  destruct (r_method r =s? "POST") eqn:E; sdestruct; [congruence|].
  by_wp He. wp_go. hist. destruct x0. auto.
Qed.

(** ** Successful runs *)

(** Silent handlers write nothing to the response (GrantHandlerFunc is not even
    given the ResponseWriter). *)
Lemma silent_run J te h r c now th x :
  only_bundled J te -> registered te (form_value r "grant_type") h -> exec (h r c now) th x ->
  http_ops th = [].
Proof. intros H1 H2 H3. apply (bundled_run J h r c now th x); auto. eapply registered_bundled; eauto. Qed.

Lemma success_run J te r tr res :
  only_bundled J te -> exec (token_handler J te r) tr res -> In 200%Z (statuses tr) ->
  exists h c ta now th rs l,
    registered te (form_value r "grant_type") h /\ authenticated J te r c ta /\
    ((exists cid sec b, presented te r cid sec b) -> c_can_grant c (form_value r "grant_type") = true) /\
    exec (h r c now) th (Done (inl rs)) /\
    tr = (ta ++ Ev ONow now :: th ++ l)%list /\
    http_ops (ta ++ Ev ONow now :: th) = [] /\ data_calls l = [] /\ calls l = [] /\
    http_ops l = success_answer rs /\ http_ops tr = success_answer rs /\ all_good tr /\ res = Done tt.
Proof.
  intros HB He HI. destruct (token_handler_cases _ _ _ _ _ He) as [HS|(h & c & ta & tg & HG)].
  - exfalso. destruct HS as [(_ & _ & H)|[(_ & _ & H)|(_ & _ & -> & _)]].
    + unfold statuses in HI. rewrite H in HI. simpl in HI. destruct HI as [HI|[]]. discriminate.
    + apply refused_ops in H. tauto.
    + destruct HI.
  - destruct HG as (_ & _ & HR & HA & HC & Hg & ->).
    destruct (authenticated_ops _ _ _ _ _ HA) as (HA1 & HA2 & HA3 & _).
    pose proof (registered_bundled _ _ _ _ HB HR) as HBh.
    destruct (execute_grant_cases _ _ _ _ _ _ Hg) as (now & HX).
    destruct HX as [(th & rs & H1 & H2 & l & -> & H3 & H4 & H5 & _)
                   |[(th & e & H1 & H2 & l & -> & H3 & H4 & H5 & _)|(th & H1 & H2 & ->)]].
    + pose proof (bundled_run _ _ _ _ _ _ _ HBh H1) as [H6 H7].
      assert (H8 : http_ops (ta ++ Ev ONow now :: th) = []).
      { rewrite http_ops_app, HA1. change (http_ops th = []). auto. }
      assert (H9 : forall ev, In ev l -> data_failure ev = None).
      { intros [o a] Hi. destruct (is_data o) eqn:E.
        - exfalso. assert (HIn : In (Ev o a) (data_calls l)) by (apply filter_In; auto).
          rewrite H3 in HIn. destruct HIn.
        - destruct o; simpl in *; congruence. }
      exists h, c, ta, now, th, rs, l. repeat (split; [assumption||reflexivity|]).
      split.
      * change (Ev ONow now :: th ++ l)%list with ((Ev ONow now :: th) ++ l)%list.
        rewrite app_assoc, http_ops_app, H8. auto.
      * split; auto. intros ev HIn. rewrite in_app_iff in HIn. simpl in HIn. rewrite in_app_iff in HIn.
        destruct HIn as [HIn|[<-|[HIn|HIn]]]; auto.
    + exfalso. pose proof (bundled_run _ _ _ _ _ _ _ HBh H1) as [H6 [H7 _]].
      change (Ev ONow now :: th ++ l)%list with ([Ev ONow now] ++ th ++ l)%list in HI.
      rewrite !statuses_app in HI. rewrite (http_none_status ta), (http_none_status th) in HI by auto.
      rewrite (statuses_http l), H5, answer_status in HI. simpl in HI.
      destruct HI as [HI|[]]. pose proof (oerr_status_range (oe_type e)). lia.
    + exfalso. destruct (bundled_run _ _ _ _ _ _ _ HBh H1) as [_ []].
Qed.

(** ** C03 *)

Lemma oerr_401 t : In t grant_errors -> Z.eqb (oerr_status t) 401 = false.
Proof. simpl. intros H. repeat destruct H as [<-|H]; auto. destruct H. Qed.

Lemma token_answers J te r tr res :
  only_bundled J te -> r_method r = "POST" -> exec (token_handler J te r) tr res ->
  match res with
  | Done _ =>
      (exists rs, http_ops tr = success_answer rs) \/
      (exists st e, error_answer te st e (http_ops tr) /\ (400 <= st <= 500)%Z /\
         (forall ev, In ev tr -> data_failure ev = Some Refused -> (st < 500)%Z) /\
         (forall ev, In ev tr -> data_failure ev = Some Broken -> st = 500%Z /\ oe_type e = EServerError))
  | Panicked => tr = [] /\ te_accept_assertion te = true /\
      jl_parse J (form_value r "client_assertion") = PMalformed
  end.
Proof.
  intros HB HM He. destruct (token_handler_cases _ _ _ _ _ He) as [HS|(h & c & ta & tg & HG)].
  - destruct HS as [(H & _)|[(_ & -> & H)|(_ & -> & -> & H)]]; [congruence| |tauto].
    destruct H as [_ (st & e & H1 & H2 & _ & H3)]. right. exists st, e. auto.
  - destruct HG as (_ & _ & HR & HA & HC & Hg & ->).
    destruct (authenticated_ops _ _ _ _ _ HA) as (HA1 & HA2 & HA3 & _).
    pose proof (registered_bundled _ _ _ _ HB HR) as HBh.
    destruct (execute_grant_cases _ _ _ _ _ _ Hg) as (now & HX).
    destruct HX as [(th & rs & H1 & -> & l & -> & H3 & H4 & H5 & _)
                   |[(th & e & H1 & -> & l & -> & H3 & H4 & H5 & _)|(th & H1 & H2 & ->)]].
    + pose proof (bundled_run _ _ _ _ _ _ _ HBh H1) as [H6 _]. left. exists rs.
      rewrite http_ops_app, HA1. simpl. change (http_ops (Ev ONow now :: th ++ l)) with (http_ops (th ++ l)).
      rewrite http_ops_app, H6. auto.
    + pose proof (bundled_run _ _ _ _ _ _ _ HBh H1) as [H6 (H7 & H8 & H9)].
      right. exists (oerr_status (oe_type e)), e.
      assert (H10 : forall ev, In ev l -> data_failure ev = None).
      { intros [o a] Hi. destruct (is_data o) eqn:E.
        - exfalso. assert (HIn : In (Ev o a) (data_calls l)) by (apply filter_In; auto).
          rewrite H3 in HIn. destruct HIn.
        - destruct o; simpl in *; congruence. }
      split; [|split; [|split]].
      * exists (with_uri (te_uri te) e). split; [apply with_uri_spec|].
        rewrite (oerr_401 _ H7).
        rewrite http_ops_app, HA1. simpl. change (http_ops (Ev ONow now :: th ++ l)) with (http_ops (th ++ l)).
        rewrite http_ops_app, H6. simpl. rewrite H5. auto.
      * apply oerr_status_range.
      * intros ev HIn Hf. rewrite in_app_iff in HIn. simpl in HIn. rewrite in_app_iff in HIn.
        destruct HIn as [HIn|[<-|[HIn|HIn]]].
        -- rewrite (HA2 _ HIn) in Hf. discriminate.
        -- discriminate.
        -- rewrite (H8 _ HIn Hf). lia.
        -- rewrite (H10 _ HIn) in Hf. discriminate.
      * intros ev HIn Hf. rewrite in_app_iff in HIn. simpl in HIn. rewrite in_app_iff in HIn.
        destruct HIn as [HIn|[<-|[HIn|HIn]]].
        -- rewrite (HA2 _ HIn) in Hf. discriminate.
        -- discriminate.
        -- rewrite (H9 _ HIn Hf). auto.
        -- rewrite (H10 _ HIn) in Hf. discriminate.
    + destruct (bundled_run _ _ _ _ _ _ _ HBh H1) as [_ []].
Qed.

(** ** Uniqueness *)

Lemma registered_fun te gt h h' : registered te gt h -> registered te gt h' -> h = h'.
Proof.
  intros H1 H2. apply find_handler_some in H1. apply find_handler_some in H2. congruence.
Qed.

Lemma presented_fun te r cid sec b cid' sec' b' :
  presented te r cid sec b -> presented te r cid' sec' b' -> cid = cid' /\ sec = sec' /\ b = b'.
Proof. intros H1 H2. destruct H1; inversion H2; subst; repeat split; congruence. Qed.

(** ** Operations on behalf of a grant *)

Lemma granted_event J te r tr res t1 o a t2 :
  exec (token_handler J te r) tr res -> tr = (t1 ++ Ev o a :: t2)%list -> grant_op o = true ->
  exists h c now th x t t',
    registered te (form_value r "grant_type") h /\ serving J te r t1 c now t /\
    exec (h r c now) th x /\ th = (t ++ Ev o a :: t')%list.
Proof.
  intros He Heq Ho.
  assert (HIn : In (Ev o a) tr) by (rewrite Heq; apply in_or_app; simpl; auto).
  destruct (token_handler_cases _ _ _ _ _ He) as [HS|(h & c & ta & tg & HG)].
  - exfalso. destruct HS as [(_ & _ & H)|[(_ & _ & H)|(_ & _ & H & _)]].
    + apply (in_map ev_op) in HIn. change (In o (ops tr)) in HIn. rewrite H in HIn.
      destruct HIn as [<-|[<-|[]]]; discriminate.
    + apply refused_ops in H. apply (proj1 H) in HIn. simpl in HIn. congruence.
    + subst. destruct t1; discriminate.
  - destruct HG as (_ & _ & HR & HA & HC & Hg & Hta). rewrite Heq in Hta.
    destruct (app_split _ _ _ _ _ Hta) as [(l & Ht1 & Htg)|HI].
    2: { apply authenticated_ops in HA. destruct HA as (_ & _ & HA & _). apply HA in HI.
         simpl in HI. congruence. }
    destruct (execute_grant_cases _ _ _ _ _ _ Hg) as (now & HX).
    assert (HX' : exists th x l2, exec (h r c now) th x /\ tg = (Ev ONow now :: th ++ l2)%list /\
                    data_calls l2 = []).
    { destruct HX as [(th & rs & H1 & _ & l2 & H2 & H3 & _)
                     |[(th & e & H1 & _ & l2 & H2 & H3 & _)|(th & H1 & _ & H2)]].
      - exists th, (Done (inl rs)), l2. auto.
      - exists th, (Done (inr e)), l2. auto.
      - exists th, Panicked, []. rewrite app_nil_r. auto. }
    clear HX. destruct HX' as (th & x & l2 & H1 & -> & H3).
    destruct l as [|e0 l]; simpl in Htg; injection Htg as He0 Htg.
    { destruct o; try discriminate Ho; discriminate He0. }
    subst e0. clear Hta. symmetry in Htg.
    (* the event is in [th], not in [l2] *)
    assert (HT : exists t', th = (l ++ Ev o a :: t')%list).
    { clear - Htg H3 Ho. revert l Htg. induction th as [|y th IH]; intros l Htg; simpl in Htg.
      - exfalso. assert (HI : In (Ev o a) (data_calls l2)).
        { apply filter_In. split; [rewrite <- Htg; apply in_or_app; simpl; auto|].
          destruct o; simpl in *; congruence. }
        rewrite H3 in HI. destruct HI.
      - destruct l as [|z l]; simpl in Htg; injection Htg as -> Htg.
        + exists th. auto.
        + destruct (IH _ Htg) as [t' ->]. exists t'. auto. }
    destruct HT as [t' HT].
    exists h, c, now, th, x, l, t'. split; [auto|]. split; [|split; auto].
    exists ta. auto.
Qed.

Lemma exec_guard {A} (G : guard) (Q : post A) p tr r t1 o a t2 :
  wp G Q [] p -> exec p tr r -> tr = (t1 ++ Ev o a :: t2)%list -> G t1 o.
Proof. intros H1 H2 H3. exact (wp_guard G Q p tr r t1 (Ev o a) t2 H1 H2 H3). Qed.

(** ** C05 *)

Lemma unsupported_grant J te r tr res :
  r_method r = "POST" -> form_value r "grant_type" <> "" ->
  (forall h, ~ registered te (form_value r "grant_type") h) ->
  exec (token_handler J te r) tr res ->
  res = Done tt /\ data_calls tr = [] /\
  exists e, oe_type e = EUnsupportedGrantType /\ error_answer te 400 e (http_ops tr).
Proof.
  intros HM HG HN He. unfold token_handler in He.
  destruct (r_method r =s? "POST") eqn:E; sdestruct; [|congruence]. cbn [negb] in He.
  destruct (form_value r "grant_type" =s? "") eqn:E2; sdestruct; [congruence|].
  destruct (find_handler (form_value r "grant_type") (te_handlers te)) as [h|] eqn:E3.
  { exfalso. apply (HN h). apply find_handler_some. auto. }
  by_wp He. unfold te_fail, set_common_headers. wp_go. hist. destruct x4.
  split; [auto|]. split; [auto|]. exists (new_oerr EUnsupportedGrantType
    ("unsupported 'grant_type' parameter: '" ++ form_value r "grant_type" ++ "'")).
  split; [reflexivity|]. eexists. split; [apply with_uri_spec|]. reflexivity.
Qed.

Lemma empty_grant J te r tr res :
  r_method r = "POST" -> form_value r "grant_type" = "" ->
  exec (token_handler J te r) tr res ->
  res = Done tt /\ data_calls tr = [] /\
  exists e, oe_type e = EInvalidRequest /\ error_answer te 400 e (http_ops tr).
Proof.
  intros HM HG He. unfold token_handler in He.
  destruct (r_method r =s? "POST") eqn:E; sdestruct; [|congruence]. cbn [negb] in He.
  destruct (form_value r "grant_type" =s? "") eqn:E2; sdestruct; [|congruence].
  by_wp He. unfold te_fail, set_common_headers. wp_go. hist. destruct x4.
  split; [auto|]. split; [auto|]. exists (new_oerr EInvalidRequest "missing 'grant_type' parameter").
  split; [reflexivity|]. eexists. split; [apply with_uri_spec|]. reflexivity.
Qed.

Lemma support_handlers regs : forall te,
  te_handlers (fold_left (fun te p => te_support te (fst p) (snd p)) regs te)
  = (rev regs ++ te_handlers te)%list.
Proof.
  induction regs as [|[n h] regs IH]; intros te; simpl; auto.
  rewrite IH. simpl. rewrite <- app_assoc. auto.
Qed.

Lemma support_last realm regs gt h :
  registered (fold_left (fun te p => te_support te (fst p) (snd p)) regs (new_token_endpoint realm)) gt h
  <-> exists before after, regs = (before ++ (gt, h) :: after)%list /\ ~ In gt (map fst after).
Proof.
  unfold registered. rewrite support_handlers. simpl. rewrite app_nil_r. split.
  - intros (later & earlier & H & HN). exists (rev earlier), (rev later). split.
    + rewrite <- (rev_involutive regs), H, rev_app_distr. simpl. rewrite <- app_assoc. auto.
    + rewrite map_rev, <- in_rev. auto.
  - intros (before & after & -> & HN). exists (rev after), (rev before). split.
    + rewrite rev_app_distr. simpl. rewrite <- app_assoc. auto.
    + rewrite map_rev, <- in_rev. auto.
Qed.

(** ** C06 *)

Lemma no_credentials J te r tr res :
  te_accept_assertion te = false -> (forall cid sec b, ~ presented te r cid sec b) ->
  exec (token_handler J te r) tr res ->
  data_calls tr = [] /\ ~ In 200%Z (statuses tr).
Proof.
  intros HA HP He. unfold token_handler in He.
  destruct (r_method r =s? "POST") eqn:E; sdestruct; cbn [negb] in He.
  2: { by_wp He. wp_go. hist. split; auto. simpl. intuition discriminate. }
  destruct (form_value r "grant_type" =s? "") eqn:E2; sdestruct.
  { by_wp He. unfold te_fail, set_common_headers. wp_go. hist. split; auto.
    simpl. intuition discriminate. }
  destruct (find_handler (form_value r "grant_type") (te_handlers te)) as [h|] eqn:E3.
  2: { by_wp He. unfold te_fail, set_common_headers. wp_go. hist. split; auto.
    simpl. intuition discriminate. }
  pose proof (find_client_credential_spec te r) as HC.
  destruct (find_client_credential te r) as [[[cid sec] b]|].
  { exfalso. exact (HP _ _ _ HC). }
  rewrite HA in He. by_wp He. unfold te_fail_auth, set_common_headers. wp_go. hist. split; auto.
  simpl. intuition discriminate.
Qed.

Lemma served_intro J te r tr res :
  only_bundled J te -> exec (token_handler J te r) tr res -> In 200%Z (statuses tr) ->
  exists h c now th rs, registered te (form_value r "grant_type") h /\
    served J te r tr c now th rs /\ exec (h r c now) th (Done (inl rs)).
Proof.
  intros HB He HI. destruct (success_run _ _ _ _ _ HB He HI)
    as (h & c & ta & now & th & rs & l & H1 & H2 & H3 & H4 & H5 & H6 & H7 & H8 & H9 & _).
  exists h, c, now, th, rs. split; [auto|]. split; [|auto]. exists ta, l. auto.
Qed.

(** ** C07, C08 *)

Lemma code_exchange_sound J te r tr res :
  only_bundled J te -> registered te (form_value r "grant_type") (authorization_code J) ->
  exec (token_handler J te r) tr res -> In 200%Z (statuses tr) ->
  exists c now th rs, served J te r tr c now th rs /\ code_success J r c now (data_calls th) rs.
Proof.
  intros HB HR He HI. destruct (served_intro _ _ _ _ _ HB He HI) as (h & c & now & th & rs & H1 & H2 & H3).
  rewrite (registered_fun _ _ _ _ H1 HR) in H3.
  apply (wp_exec _ _ _ _ _ (authorization_code_wp _ _ _ _)) in H3. destruct H3 as (_ & _ & H3).
  exists c, now, th, rs. auto.
Qed.

Lemma code_exchange_guarded J te r tr res t1 o a t2 :
  registered te (form_value r "grant_type") (authorization_code J) ->
  exec (token_handler J te r) tr res -> tr = (t1 ++ Ev o a :: t2)%list ->
  grant_op o = true -> is_update o = true ->
  exists c now th sess info rest,
    serving J te r t1 c now th /\ code_checks r c sess info /\
    data_calls th = (found_calls r sess info ++ rest)%list /\
    ((o = OCreateToken (Some info) true /\ rest = []) \/
     (o = ODisable sess /\ exists tok, rest = [Ev (OCreateToken (Some info) true) (Some tok, None)])).
Proof.
  intros HR He Heq Ho Hu.
  destruct (granted_event _ _ _ _ _ _ _ _ _ He Heq Ho) as (h & c & now & th & x & t & t' & H1 & H2 & H3 & H4).
  rewrite (registered_fun _ _ _ _ H1 HR) in H3.
  pose proof (exec_guard _ _ _ _ _ _ _ _ _ (authorization_code_wp _ _ _ _) H3 H4) as HG.
  unfold code_guard in HG. destruct o; try discriminate; try (destruct HG; fail).
  - destruct HG as (sess & info & -> & -> & HC & HD).
    exists c, now, t, sess, info, []. rewrite app_nil_r. auto 6.
  - destruct HG as (info & tok & HC & HD).
    exists c, now, t, s, info. eexists. split; [eauto|]. split; [auto|]. split; [eassumption|]. eauto.
Qed.

(** ** C15, C16 *)

Lemma refresh_sound J te r tr res :
  only_bundled J te -> registered te (form_value r "grant_type") refresh_token ->
  exec (token_handler J te r) tr res -> In 200%Z (statuses tr) ->
  exists c now th rs, served J te r tr c now th rs /\ refresh_success r c now (data_calls th) rs.
Proof.
  intros HB HR He HI. destruct (served_intro _ _ _ _ _ HB He HI) as (h & c & now & th & rs & H1 & H2 & H3).
  rewrite (registered_fun _ _ _ _ H1 HR) in H3.
  apply (wp_exec _ _ _ _ _ (refresh_token_wp _ _ _)) in H3. destruct H3 as (_ & _ & H3).
  exists c, now, th, rs. auto.
Qed.

Lemma refresh_guarded J te r tr res t1 o a t2 :
  registered te (form_value r "grant_type") refresh_token ->
  exec (token_handler J te r) tr res -> tr = (t1 ++ Ev o a :: t2)%list ->
  grant_op o = true -> is_update o = true ->
  exists c now th old info,
    serving J te r t1 c now th /\ o = ORefresh info old /\ refresh_checks r c now old info /\
    data_calls th = refresh_found r old info.
Proof.
  intros HR He Heq Ho Hu.
  destruct (granted_event _ _ _ _ _ _ _ _ _ He Heq Ho) as (h & c & now & th & x & t & t' & H1 & H2 & H3 & H4).
  rewrite (registered_fun _ _ _ _ H1 HR) in H3.
  pose proof (exec_guard _ _ _ _ _ _ _ _ _ (refresh_token_wp _ _ _) H3 H4) as HG.
  unfold refresh_guard in HG. destruct o; try discriminate; try (destruct HG; fail).
  destruct HG as (HC & HD). exists c, now, t, t0, i. auto.
Qed.

(** ** C17 *)

(** How each direct grant identifies the user. *)
Inductive direct (J : jwtlib) (r : request) (c : client) : handler -> (list event -> Z -> Prop) -> Prop :=
| d_password : direct J r c password_grant (password_ident r)
| d_client : direct J r c client_credentials (client_ident c)
| d_jwt : direct J r c (jwt_grant J) (jwt_ident J r c).

Lemma direct_sound J te r tr res h :
  only_bundled J te -> registered te (form_value r "grant_type") h ->
  exec (token_handler J te r) tr res -> In 200%Z (statuses tr) ->
  exists c now th rs, served J te r tr c now th rs /\
    (forall ident, direct J r c h ident -> direct_success r c ident (calls th) rs).
Proof.
  intros HB HR He HI. destruct (served_intro _ _ _ _ _ HB He HI) as (h' & c & now & th & rs & H1 & H2 & H3).
  rewrite (registered_fun _ _ _ _ H1 HR) in H3.
  exists c, now, th, rs. split; [auto|]. intros ident HD. destruct HD.
  - apply (wp_exec _ _ _ _ _ (password_grant_wp _ _ _)) in H3. tauto.
  - apply (wp_exec _ _ _ _ _ (client_credentials_wp _ _ _)) in H3. tauto.
  - apply (wp_exec _ _ _ _ _ (jwt_grant_wp _ _ _ _)) in H3. tauto.
Qed.

Lemma direct_guarded J te r tr res h t1 o a t2 :
  registered te (form_value r "grant_type") h ->
  exec (token_handler J te r) tr res -> tr = (t1 ++ Ev o a :: t2)%list ->
  grant_op o = true -> is_update o = true ->
  exists c now th, serving J te r t1 c now th /\
    forall ident, direct J r c h ident ->
      direct_checks r c /\
      exists h0 uid, ident h0 uid /\
       ((o = OCreateInfo uid (c_id c) (form_value r "scope") /\ calls th = h0) \/
        (exists info, o = OCreateToken (Some info) true /\
           calls th = (h0 ++ [Ev (OCreateInfo uid (c_id c) (form_value r "scope")) (Some info, None)])%list)).
Proof.
  intros HR He Heq Ho Hu.
  destruct (granted_event _ _ _ _ _ _ _ _ _ He Heq Ho) as (h' & c & now & th & x & t & t' & H1 & H2 & H3 & H4).
  rewrite (registered_fun _ _ _ _ H1 HR) in H3.
  exists c, now, t. split; [auto|]. intros ident HD.
  assert (HG : direct_guard r c ident t o).
  { destruct HD.
    - exact (exec_guard _ _ _ _ _ _ _ _ _ (password_grant_wp _ _ _) H3 H4).
    - exact (exec_guard _ _ _ _ _ _ _ _ _ (client_credentials_wp _ _ _) H3 H4).
    - exact (proj1 (exec_guard _ _ _ _ _ _ _ _ _ (jwt_grant_wp _ _ _ _) H3 H4)). }
  unfold direct_guard in HG. destruct o; try discriminate; try (destruct HG; fail).
  - destruct HG as (h0 & uid & info & -> & -> & HI & HC & HD'). split; [auto|].
    exists h0, uid. split; [auto|]. right. exists info. auto.
  - destruct HG as (HI & -> & -> & HC). split; [auto|]. eexists _, uid. split; [eauto|]. left. auto.
Qed.

(** ** C18, C20 *)

Lemma client_assertion_sound J te r tr res ca :
  presented_assertion te r ca ->
  exec (token_handler J te r) tr res ->
  forall t1 o a t2, tr = (t1 ++ Ev o a :: t2)%list -> grant_op o = true \/ o = OStatus 200 ->
  exists c t sub evs rest, accepted J ca c t evs /\ jstr "sub" (jt_claims t) = Some sub /\
    t1 = (Ev (OFindClient sub) (Some c, None) :: evs ++ rest)%list.
Proof.
  intros HP He t1 o a t2 Heq Ho.
  destruct (token_needs_authentication _ _ _ _ _ He _ _ _ _ Heq Ho) as (c & ta & rest & HA & -> & _).
  destruct HA as [cid sec b H1 H2|ca' t sub evs H1 H2 H3].
  - exfalso. destruct HP as (_ & HP & _). exact (HP _ _ _ H1).
  - assert (ca' = ca) as ->.
    { destruct H1 as (_ & _ & H1 & _). destruct HP as (_ & _ & HP & _). congruence. }
    exists c, t, sub, evs, rest. auto.
Qed.

Lemma jwt_grant_sound J te r tr res t1 o a t2 :
  registered te (form_value r "grant_type") (jwt_grant J) ->
  exec (token_handler J te r) tr res -> tr = (t1 ++ Ev o a :: t2)%list -> grant_op o = true ->
  exists c now th t evs rest, serving J te r t1 c now th /\
    accepted J (form_value r "assertion") c t evs /\ calls th = (evs ++ rest)%list.
Proof.
  intros HR He Heq Ho.
  destruct (granted_event _ _ _ _ _ _ _ _ _ He Heq Ho) as (h' & c & now & th & x & t & t' & H1 & H2 & H3 & H4).
  rewrite (registered_fun _ _ _ _ H1 HR) in H3.
  destruct (exec_guard _ _ _ _ _ _ _ _ _ (jwt_grant_wp _ _ _ _) H3 H4) as [HG1 HG2].
  unfold direct_guard in HG1. destruct o; try discriminate; try (destruct HG1; fail); try (destruct HG2; fail).
  - destruct HG1 as (h0 & uid & info & _ & _ & (tk & evs & sub & _ & HA & _ & ->) & _ & HD).
    exists c, now, t, tk, evs. eexists. split; [eauto|]. split; [eauto|].
    rewrite HD, <- app_assoc. reflexivity.
  - destruct HG1 as ((tk & evs & sub & _ & HA & _ & HD) & _).
    exists c, now, t, tk, evs. eexists. split; [eauto|]. split; [eauto|]. exact HD.
  - destruct HG2 as (tk & HA & _).
    exists c, now, t, tk. eexists _, []. split; [eauto|]. split; [eauto|]. rewrite app_nil_r. auto.
Qed.
