(** Lemmas: direct grants at the bundled server. *)
From Coq Require Import Lia.
From Verif Require Import StrFacts Hoare WpTac Core Utils World Spec TokenSpec OAuthError Assertion Grants TokenEndpoint GrantFacts TokenFacts
  TokenProofs LogFacts TestStore SysSpec SysFacts FaultSpec FaultFacts TestServer ServerSpec ServerFacts.

Lemma rrun_exec {S A} (W : rworld S) s (p : prog A) tr r s' : rrun W s p tr r s' -> exec p tr r.
Proof. induction 1; constructor; auto. Qed.
(* Every answer comes from a state with the same users and clients. *)
Lemma rrun_events {A} b s (p : prog A) tr r s' : rrun (sstep b) s p tr r s' -> forall o a, In (Ev o a) tr ->
  exists s1 s2, st_users s1 = st_users s /\ st_clients s1 = st_clients s /\ sstep b s1 o a s2.
Proof.
  induction 1 as [s x|s|s o k x s1 tr r s2 H1 H2 IH]; intros o' a HI; try destruct HI as [E|HI]; try destruct HI.
  - exists s, s1. split; [reflexivity|]. split; [reflexivity|]. change (match Ev o' a with Ev o a => sstep b s o a s1 end). rewrite <- E. exact H1.
  - destruct (IH _ _ HI) as (x1 & x2 & E1 & E2 & HS). destruct (users_kept _ _ _ _ _ H1) as [U C]. exists x1, x2. split; [congruence|]. split; [congruence|exact HS].
Qed.

(* The bundled store never breaks down, except where it supports nothing. *)
Lemma sstep_broken b s o a s' : sstep b s o a s' -> data_failure (Ev o a) = Some Broken -> exists u c, o = OFindInfo u c.
Proof.
  intros H. destruct H; cbn; intros E; try discriminate E; eauto.
  - destruct (sget cid (st_clients s)); discriminate E.
  - destruct (sget code (st_sessions s)); discriminate E.
  - destruct (zget id (st_infos s)); discriminate E.
  - destruct (sget t (st_tokens s)); discriminate E.
Qed.

Definition find_client_ans (o : op) : ans o -> store -> Prop :=
  match o as o0 return ans o0 -> store -> Prop with
  | OFindClient cid => fun a s => a = match sget cid (st_clients s) with Some c => (Some c, None) | None => failed end
  | OFindUser u p => fun a s => match a with
      | (id, None) => In (id, u, p) (st_users s)
      | (_, Some e) => e = ErrFailed /\ forall id, ~ In (id, u, p) (st_users s) end
  | OCreateInfo _ _ _ => fun a _ => exists i, a = (Some i, None)
  | OCreateToken _ _ => fun a _ => exists t, a = (Some t, None)
  | OFindInfo _ _ => fun a _ => a = (None, Some ErrUnsupported)
  | _ => fun _ _ => True
  end.
Lemma sstep_answers b s o a s' : sstep b s o a s' -> find_client_ans o a s.
Proof. intros H. destruct H; cbn; eauto. Qed.

Definition no_lookup : guard := fun _ o => forall u c, o <> OFindInfo u c.
Lemma password_no_lookup r c now : wp no_lookup (fun _ _ => True) [] (password_grant r c now).
Proof. unfold no_lookup. unfold_grants. wp_go; unfold refuse; try apply wp_ret; try exact I; discriminate. Qed.
Lemma client_no_lookup r c now : wp no_lookup (fun _ _ => True) [] (client_credentials r c now).
Proof. unfold no_lookup. unfold_grants. wp_go; unfold refuse; try apply wp_ret; try exact I; discriminate. Qed.

Definition simple_grant (h : handler) : Prop := h = password_grant \/ h = client_credentials.
Lemma simple_no_lookup J te r tr res h u c a :
  registered te (form_value r "grant_type") h -> simple_grant h -> exec (token_handler J te r) tr res -> ~ In (Ev (OFindInfo u c) a) tr.
Proof.
  intros HR HS HX HI. apply in_split in HI. destruct HI as (t1 & t2 & E).
  destruct (granted_event _ _ _ _ _ _ _ _ _ HX E eq_refl) as (h' & c' & now & th & x & t & t' & H1 & _ & H3 & H4).
  rewrite (registered_fun _ _ _ _ H1 HR) in H3. destruct HS as [-> | ->].
  - exact (exec_guard _ _ _ _ _ _ _ _ _ (password_no_lookup _ _ _) H3 H4 _ _ eq_refl).
  - exact (exec_guard _ _ _ _ _ _ _ _ _ (client_no_lookup _ _ _) H3 H4 _ _ eq_refl).
Qed.

(** ** The handlers differ: their first operations do, for a request without parameters. *)
Definition bare : request := Request "POST" "" [] [] [].
Definition bare_client : client :=
  Client "" (-1) "" "" None (fun _ => false) (fun _ => false) (fun _ => false) (fun _ _ => false) (fun _ => false) (fun _ _ => None) ForceConsent NoneForbidden.
Definition first_param (h : handler) : option string :=
  match h bare bare_client 0%Z with Vis (OLog _ _ ((_, v) :: _)) _ => Some v | _ => None end.
Lemma first_code J : first_param (authorization_code J) = Some "redirect_uri". Proof. reflexivity. Qed.
Lemma first_refresh : first_param refresh_token = Some "refresh_token". Proof. reflexivity. Qed.
Lemma first_password : first_param password_grant = Some "username". Proof. reflexivity. Qed.
Lemma first_client : first_param client_credentials = Some "OwnerUserId". Proof. reflexivity. Qed.
Lemma first_jwt J : first_param (jwt_grant J) = Some "assertion". Proof. reflexivity. Qed.

(** ** What a refusal would need *)
Definition knows (s : store) (tr : list event) : Prop := forall o a, In (Ev o a) tr -> exists s1 s2, st_users s1 = st_users s /\ st_clients s1 = st_clients s /\ sstep false s1 o a s2.
Lemma knows_ans s tr o a : knows s tr -> In (Ev o a) tr -> find_client_ans o a s.
Proof.
  intros HK HI. destruct (HK _ _ HI) as (s1 & s2 & HU & HC & H). apply sstep_answers in H.
  destruct o; cbn in *; rewrite ?HU, ?HC in H; exact H.
Qed.
Definition sound_run (tr : list event) : Prop := forall u c a, ~ In (Ev (OFindInfo u c) a) tr.
Lemma not_broken s tr : knows s tr -> sound_run tr -> ~ broke_down tr.
Proof.
  intros HK HS ([o a] & HI & HF). destruct (HK _ _ HI) as (s1 & s2 & _ & _ & H).
  destruct (sstep_broken _ _ _ _ _ H HF) as (u & c & ->). exact (HS _ _ _ HI).
Qed.
Lemma direct_impossible s tr r c uid e d : knows s tr -> sound_run tr -> direct_checks r c -> ~ direct_fault r c tr uid e d.
Proof.
  intros HK HS HC [H H0|(a & H & H0)|i H (a & H0 & H1)|H].
  - destruct HC; congruence.
  - apply (knows_ans _ _ _ _ HK) in H. destruct H as (i & ->). discriminate H0.
  - apply (knows_ans _ _ _ _ HK) in H0. destruct H0 as (t & ->). discriminate H1.
  - exact (not_broken _ _ HK HS H).
Qed.
Lemma password_impossible s tr r c e d id : knows s tr -> sound_run tr -> direct_checks r c ->
  form_value r "username" <> "" -> form_value r "password" <> "" ->
  In (id, form_value r "username", form_value r "password") (st_users s) -> ~ password_fault r c tr e d.
Proof.
  intros HK HS HC HU HP HI [k H H0|H H0|(a & H & H0)|u t d' H H0|H].
  - destruct H as [<-|[<-|[]]]; contradiction.
  - destruct HC; congruence.
  - apply (knows_ans _ _ _ _ HK) in H. destruct a as [x [y|]]; [|discriminate H0]. destruct H as [_ H]. exact (H _ HI).
  - exact (direct_impossible _ _ _ _ _ _ _ HK HS HC H0).
  - exact (not_broken _ _ HK HS H).
Qed.
Lemma client_impossible s tr r c e d : knows s tr -> sound_run tr -> direct_checks r c -> (0 <= c_owner c)%Z -> ~ client_fault r c tr e d.
Proof.
  intros HK HS HC HO [H|t d' H].
  - lia.
  - exact (direct_impossible _ _ _ _ _ _ _ HK HS HC H).
Qed.

(** With credentials, the handler does not panic. *)
Lemma presented_no_panic J te r cid sec b h tr res :
  presented te r cid sec b -> simple_grant h -> registered te (form_value r "grant_type") h ->
  exec (token_handler J te r) tr res -> res = Done tt.
Proof.
  intros HP HS HR HX. destruct (token_handler_cases _ _ _ _ _ HX) as [HC|(h' & c & ta & tg & HG)].
  - destruct HC as [(_ & -> & _)|[(_ & -> & _)|(HM & -> & -> & _)]]; try reflexivity. exfalso.
    unfold token_handler in HX. rewrite HM in HX. change (negb ("POST" =s? "POST")) with false in HX. cbn iota in HX.
    destruct (form_value r "grant_type" =s? "") eqn:EG; [inversion HX|].
    destruct (find_handler (form_value r "grant_type") (te_handlers te)) as [h0|] eqn:EH; [|inversion HX].
    rewrite (presented_find _ _ _ _ _ HP) in HX. inversion HX.
  - destruct HG as (_ & _ & HR' & _ & _ & HG & _). rewrite (registered_fun _ _ _ _ HR' HR) in HG.
    destruct (execute_grant_cases _ _ _ _ _ _ HG) as (now & [(th & rs & _ & -> & _)|[(th & e & _ & -> & _)|(th & HX' & _)]]); try reflexivity. exfalso.
    destruct HS as [-> | ->].
    + apply (wp_exec _ _ _ _ _ (password_grant_wp _ _ _)) in HX'. tauto.
    + apply (wp_exec _ _ _ _ _ (client_credentials_wp _ _ _)) in HX'. tauto.
Qed.

(** ** The direct grants *)
Lemma presented_success J te r cid sec b tr res s s' :
  only_bundled J te -> rrun (sstep false) s (token_handler J te r) tr res s' -> presented te r cid sec b -> In 200%Z (statuses tr) ->
  exists h c now th rs, registered te (form_value r "grant_type") h /\ exec (h r c now) th (Done (inl rs)) /\ incl th tr /\
    sget cid (st_clients s) = Some c /\ c_match_secret c sec = true /\ c_can_grant c (form_value r "grant_type") = true.
Proof.
  intros HB HR HP HI. pose proof (rrun_exec _ _ _ _ _ _ HR) as HX.
  destruct (success_run _ _ _ _ _ HB HX HI) as (h & c & ta & now & th & rs & l & H1 & H2 & H3 & H4 & HE & _).
  exists h, c, now, th, rs. split; [exact H1|]. split; [exact H4|].
  split; [rewrite HE; intros x Hx; apply in_or_app; right; right; apply in_or_app; auto|].
  assert (HC : In (Ev (OFindClient cid) (Some c, None)) tr /\ c_match_secret c sec = true).
  { inversion H2; subst.
    - destruct (presented_fun _ _ _ _ _ _ _ _ HP H) as (-> & -> & ->). split; [apply in_or_app; left; left; reflexivity|assumption].
    - destruct H as (_ & HN & _). destruct (HN _ _ _ HP). }
  destruct HC as [HC HM]. split; [|split; [exact HM|apply H3; eauto]].
  apply (knows_ans s) in HC; [|intros o a; exact (rrun_events _ _ _ _ _ _ HR o a)].
  cbn in HC. destruct (sget cid (st_clients s)); [|discriminate HC]. injection HC as <-. reflexivity.
Qed.

Definition allowed (s : store) (r : request) (cid sec : string) (c : client) : Prop :=
  sget cid (st_clients s) = Some c /\ c_match_secret c sec = true /\ c_can_grant c (form_value r "grant_type") = true /\ direct_checks r c.

(* What the handler asks besides: *)
Definition asks (s : store) (r : request) (c : client) (h : handler) : Prop :=
  (h = password_grant /\ form_value r "username" <> "" /\ form_value r "password" <> "" /\
     exists id, In (id, form_value r "username", form_value r "password") (st_users s)) \/
  (h = client_credentials /\ (0 <= c_owner c)%Z).

Lemma simple_iff J te r cid sec b tr res s s' h :
  only_bundled J te -> r_method r = "POST" -> form_value r "grant_type" <> "" -> registered te (form_value r "grant_type") h -> simple_grant h ->
  presented te r cid sec b -> rrun (sstep false) s (token_handler J te r) tr res s' ->
  In 200%Z (statuses tr) <-> exists c, allowed s r cid sec c /\ asks s r c h.
Proof.
  intros HB HM HG HR HS HP HX. pose proof (rrun_exec _ _ _ _ _ _ HX) as HE.
  assert (HK : knows s tr) by (intros o a; exact (rrun_events _ _ _ _ _ _ HX o a)).
  split.
  - intros HI. destruct (presented_success _ _ _ _ _ _ _ _ _ _ HB HX HP HI) as (h' & c & now & th & rs & H1 & H2 & H3 & H4 & H5 & H6).
    rewrite (registered_fun _ _ _ _ H1 HR) in H2. exists c.
    destruct HS as [-> | ->].
    + apply (wp_exec _ _ _ _ _ (password_grant_wp _ _ _)) in H2. destruct H2 as (_ & _ & h0 & uid & info & tok & (U & P & ->) & HC & HD & _).
      split; [exact (conj H4 (conj H5 (conj H6 HC)))|]. left. split; [reflexivity|]. split; [exact U|]. split; [exact P|]. exists uid.
      assert (HI' : In (Ev (OFindUser (form_value r "username") (form_value r "password")) (uid, None)) tr).
      { apply H3. assert (HF : In (Ev (OFindUser (form_value r "username") (form_value r "password")) (uid, None)) (calls th)) by (rewrite HD; left; reflexivity).
        apply filter_In in HF. apply HF. }
      exact (knows_ans _ _ _ _ HK HI').
    + apply (wp_exec _ _ _ _ _ (client_credentials_wp _ _ _)) in H2. destruct H2 as (_ & _ & h0 & uid & info & tok & (_ & -> & HO) & HC & _).
      split; [exact (conj H4 (conj H5 (conj H6 HC)))|]. right. auto.
  - intros (c & (H1 & H2 & H3 & H4) & HA).
    pose proof (presented_no_panic _ _ _ _ _ _ _ _ _ HP HS HR HE) as ->.
    destruct (in_dec Z.eq_dec 200%Z (statuses tr)) as [HI|HI]; [exact HI|exfalso].
    destruct (errors_have_reasons _ _ _ _ HB HM HE HI) as (st & e & _ & HF).
    assert (HSR : sound_run tr) by (intros u x a; exact (simple_no_lookup _ _ _ _ _ _ _ _ _ HR HS HE)).
    assert (HCl : forall c', In (Ev (OFindClient cid) (Some c', None)) tr -> c' = c).
    { intros c' H. apply (knows_ans _ _ _ _ HK) in H. cbn in H. rewrite H1 in H. congruence. }
    revert HF. generalize (oe_type e), (oe_desc e). clear e. intros e d HF.
    destruct HF as [H|H H0|H H0|x y z H H0|x y z c' H H0 H5|x y z c' H H0 H5 H6|ca ta' rest e d H H0 H5 H6|ta' th' rest h' c' now' e d H H0 H5 H6|H].
    + contradiction.
    + exact (H0 _ HR).
    + exact (H _ _ _ HP).
    + destruct (presented_fun _ _ _ _ _ _ _ _ HP H) as (<- & <- & <-). destruct H0 as (a & HI' & HF).
      apply (knows_ans _ _ _ _ HK) in HI'. cbn in HI'. rewrite H1 in HI'. subst a. discriminate HF.
    + destruct (presented_fun _ _ _ _ _ _ _ _ HP H) as (<- & <- & <-). apply HCl in H0. congruence.
    + destruct (presented_fun _ _ _ _ _ _ _ _ HP H) as (<- & <- & <-). apply HCl in H0. congruence.
    + destruct H as (_ & HN & _). exact (HN _ _ _ HP).
    + assert (HIn : incl th' tr) by (rewrite H5; intros w Hw; apply in_or_app; right; right; apply in_or_app; auto).
      assert (HK' : knows s th') by (intros o a HI'; exact (HK _ _ (HIn _ HI'))).
      assert (HS' : sound_run th') by (intros u w a HI'; exact (HSR _ _ _ (HIn _ HI'))).
      assert (c' = c) as ->.
      { apply HCl. rewrite H5. inversion H as [x y z H7 H8|ca t sub evs H7]; subst.
        - destruct (presented_fun _ _ _ _ _ _ _ _ HP H7) as (<- & <- & <-). left. reflexivity.
        - destruct H7 as (_ & HN & _). destruct (HN _ _ _ HP). }
      rewrite (registered_fun _ _ _ _ H0 HR) in H6. clear H0.
      destruct H6 as [t d' H6|t d' H6|t d' H6|t d' H6|t d' H6];
        destruct HA as [(E & HA)|(E & HA)]; apply (f_equal first_param) in E;
        rewrite ?first_code, ?first_refresh, ?first_password, ?first_client, ?first_jwt in E; try discriminate E; revert H6.
      * destruct HA as (HA1 & HA2 & id & HA3). eapply password_impossible; eauto.
      * eapply client_impossible; eauto.
    + exact (not_broken _ _ HK HSR H).
Qed.
