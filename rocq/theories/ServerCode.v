(** Lemmas: codes and refresh tokens at the bundled server. *)
From Coq Require Import Lia.
From Verif Require Import StrFacts Hoare WpTac Core Utils World Spec TokenSpec OAuthError Assertion Grants TokenEndpoint GrantFacts TokenFacts
  TokenProofs LogFacts TestStore SysSpec SysFacts FaultSpec FaultFacts FaultIff TestServer ServerSpec ServerFacts ServerGrants.

(* Where nothing was changed before, the answer is that of the store at the start. *)
Lemma quiet_step b s o a s' : sstep b s o a s' -> is_update o = false -> s' = s.
Proof. destruct 1; cbn; intros E; try discriminate E; reflexivity. Qed.
Lemma rrun_quiet {A} b s (p : prog A) tr r s' : rrun (sstep b) s p tr r s' -> forall t1 o a t2, tr = (t1 ++ Ev o a :: t2)%list ->
  (forall ev, In ev t1 -> is_update (ev_op ev) = false) -> exists s1, sstep b s o a s1.
Proof.
  induction 1 as [s x|s|s o k x s1 tr r s2 H1 H2 IH]; intros t1 o' a t2 E HQ; try (destruct t1; discriminate E).
  destruct t1 as [|e t1].
  - cbn [app] in E. assert (E1 := f_equal (fun l => hd_error l) E). cbn in E1. exists s1.
    change (match Ev o' a with Ev o a => sstep b s o a s1 end). assert (E2 : Ev o x = Ev o' a) by congruence. rewrite <- E2. exact H1.
  - assert (E1 := f_equal (fun l => hd_error l) E). cbn in E1. assert (E2 : Ev o x = e) by congruence. clear E1. subst e.
    assert (E3 := f_equal (@tl event) E). cbn [tl app] in E3. pose proof (quiet_step _ _ _ _ _ H1 (HQ _ (or_introl eq_refl))). subst s1.
    apply (IH _ _ _ _ E3). intros ev HI. apply HQ. right. exact HI.
Qed.

(* The two lookups of the exchange come before its changes. *)
Definition lookup (o : op) : Prop := (exists c, o = OFindSession c) \/ exists i, o = OFindActiveInfo i.
Lemma code_lookups J te r s tr res s' o a :
  registered te (form_value r "grant_type") (authorization_code J) -> (exists cid sec b, presented te r cid sec b) ->
  rrun (sstep false) s (token_handler J te r) tr res s' -> In (Ev o a) tr -> lookup o -> exists s1, sstep false s o a s1.
Proof.
  intros HR HP HX HI HL. pose proof (rrun_exec _ _ _ _ _ _ HX) as HE. apply in_split in HI. destruct HI as (t1 & t2 & E).
  apply (rrun_quiet _ _ _ _ _ _ HX _ _ _ _ E). intros ev HI.
  destruct (granted_event _ _ _ _ _ _ _ _ _ HE E) as (h & c & now & th & x & t & t' & H1 & H2 & H3 & H4); [destruct HL as [(y & ->)|(y & ->)]; reflexivity|].
  rewrite (registered_fun _ _ _ _ H1 HR) in H3. pose proof (exec_guard _ _ _ _ _ _ _ _ _ (authorization_code_wp _ _ _ _) H3 H4) as HG.
  destruct H2 as (ta & HA & ->). apply in_app_or in HI. destruct HI as [HI|[<-|HI]]; [|reflexivity|].
  - destruct HP as (cid & sec & b & HP). inversion HA; subst.
    + destruct HI as [<-|[]]. reflexivity.
    + destruct H as (_ & HN & _). destruct (HN _ _ _ HP).
  - destruct (is_update (ev_op ev)) eqn:EU; [exfalso|reflexivity].
    assert (HD : In ev (data_calls t)) by (apply filter_In; split; [exact HI|destruct ev as [oo aa]; cbn [ev_op] in *; destruct oo; try discriminate EU; reflexivity]).
    unfold code_guard in HG. destruct HL as [(y & ->)|(y & ->)].
    + destruct HG as (_ & _ & HG). rewrite HG in HD. destruct HD.
    + destruct HG as (sess & _ & HG). rewrite HG in HD. destruct HD as [<-|[]]. discriminate EU.
Qed.

(** The state of the store that the exchange of a code asks for. *)
Definition code_asks (s : store) (r : request) (c : client) : Prop :=
  exists sess info, sget (form_value r "code") (st_sessions s) = Some sess /\ zget (as_auth_id sess) (st_infos s) = Some info /\
    code_checks r c sess info.

Definition lookup_ans (o : op) : ans o -> store -> Prop :=
  match o as o0 return ans o0 -> store -> Prop with
  | OFindSession code => fun a s => a = match sget code (st_sessions s) with Some x => (Some x, None) | None => failed end
  | OFindActiveInfo id => fun a s => a = match zget id (st_infos s) with Some i => (Some i, None) | None => failed end
  | OCreateToken i _ => fun a _ => exists t, a = (Some t, None)
  | ODisable _ => fun a _ => a = None
  | OIssuer => fun a _ => a = "http://example.org/"
  | _ => fun _ _ => True
  end.
Lemma sstep_lookup s o a s1 : sstep false s o a s1 -> lookup_ans o a s.
Proof. intros H. destruct H; cbn; eauto. discriminate. Qed.

Definition access_ans (o : op) : ans o -> store -> Prop :=
  match o as o0 return ans o0 -> store -> Prop with
  | OFindByAccess t => fun a s => a = match sget t (st_tokens s) with Some x => (Some x, None) | None => failed end
  | _ => fun _ _ => True
  end.
Lemma sstep_access s o a s1 : sstep false s o a s1 -> access_ans o a s.
Proof. intros H. destruct H; cbn; eauto. Qed.

Lemma presented_done J te r cid sec b h tr res :
  presented te r cid sec b -> registered te (form_value r "grant_type") h ->
  (forall c now th x, exec (h r c now) th x -> x <> Panicked) ->
  exec (token_handler J te r) tr res -> res = Done tt.
Proof.
  intros HP HR HN HX. destruct (token_handler_cases _ _ _ _ _ HX) as [HC|(h' & c & ta & tg & HG)].
  - destruct HC as [(_ & -> & _)|[(_ & -> & _)|(HM & -> & -> & _)]]; try reflexivity. exfalso.
    unfold token_handler in HX. rewrite HM in HX. change (negb ("POST" =s? "POST")) with false in HX. cbn iota in HX.
    destruct (form_value r "grant_type" =s? "") eqn:EG; [inversion HX|].
    destruct (find_handler (form_value r "grant_type") (te_handlers te)) as [h0|] eqn:EH; [|inversion HX].
    rewrite (presented_find _ _ _ _ _ HP) in HX. inversion HX.
  - destruct HG as (_ & _ & HR' & _ & _ & HG & _). rewrite (registered_fun _ _ _ _ HR' HR) in HG.
    destruct (execute_grant_cases _ _ _ _ _ _ HG) as (now & [(th & rs & _ & -> & _)|[(th & e & _ & -> & _)|(th & HX' & _)]]); try reflexivity.
    destruct (HN _ _ _ _ HX' eq_refl).
Qed.

(* Whatever else is refused is refused to the client, not to the request. *)
Definition admits (s : store) (r : request) (cid sec : string) (c : client) : Prop :=
  sget cid (st_clients s) = Some c /\ c_match_secret c sec = true /\ c_can_grant c (form_value r "grant_type") = true.

Lemma no_lookup_in J te r h tr res u w a : registered te (form_value r "grant_type") h ->
  (forall c now, wp no_lookup (fun _ _ => True) [] (h r c now)) ->
  exec (token_handler J te r) tr res -> ~ In (Ev (OFindInfo u w) a) tr.
Proof.
  intros HR HW HX HI. apply in_split in HI. destruct HI as (t1 & t2 & E).
  destruct (granted_event _ _ _ _ _ _ _ _ _ HX E eq_refl) as (h' & c' & now & th & x & t & t' & H1 & _ & H3 & H4).
  rewrite (registered_fun _ _ _ _ H1 HR) in H3. exact (exec_guard _ _ _ _ _ _ _ _ _ (HW _ _) H3 H4 _ _ eq_refl).
Qed.
Lemma guard_weaken {A} (G G' : guard) (Q : post A) h p : (forall h o, G h o -> G' h o) -> wp G Q h p -> wp G' (fun _ _ => True) h p.
Proof. intros H. apply wp_mono; auto. Qed.

(* A request that is not answered 200, of an admitted client, has a reason in the grant. *)
Lemma grant_reason J te r cid sec b tr s s' h c :
  only_bundled J te -> r_method r = "POST" -> form_value r "grant_type" <> "" -> registered te (form_value r "grant_type") h ->
  presented te r cid sec b -> rrun (sstep false) s (token_handler J te r) tr (Done tt) s' -> admits s r cid sec c ->
  ~ broke_down tr -> ~ In 200%Z (statuses tr) ->
  exists th now e d, incl th tr /\ In (Ev ONow now) tr /\ grant_fault J r c now th h e d.
Proof.
  intros HB HM HG HR HP HX (H1 & H2 & H3) HBr HI. pose proof (rrun_exec _ _ _ _ _ _ HX) as HE.
  assert (HK : knows s tr) by (intros o a; exact (rrun_events _ _ _ _ _ _ HX o a)).
  destruct (errors_have_reasons _ _ _ _ HB HM HE HI) as (st & e & _ & HF).
  assert (HCl : forall c', In (Ev (OFindClient cid) (Some c', None)) tr -> c' = c).
  { intros c' H. apply (knows_ans _ _ _ _ HK) in H. cbn in H. rewrite H1 in H. congruence. }
  revert HF. generalize (oe_type e), (oe_desc e). clear e. intros e d HF.
  destruct HF as [H|H H0|H H0|x y z H H0|x y z c' H H0 H5|x y z c' H H0 H5 H6|ca ta' rest e d H H0 H5 H6|ta' th' rest h' c' now' e d H H0 H5 H6|H].
  - contradiction.
  - destruct (H0 _ HR).
  - destruct (H _ _ _ HP).
  - destruct (presented_fun _ _ _ _ _ _ _ _ HP H) as (<- & <- & <-). destruct H0 as (a & HI' & HF).
    apply (knows_ans _ _ _ _ HK) in HI'. cbn in HI'. rewrite H1 in HI'. subst a. discriminate HF.
  - destruct (presented_fun _ _ _ _ _ _ _ _ HP H) as (<- & <- & <-). apply HCl in H0. congruence.
  - destruct (presented_fun _ _ _ _ _ _ _ _ HP H) as (<- & <- & <-). apply HCl in H0. congruence.
  - destruct H as (_ & HN & _). destruct (HN _ _ _ HP).
  - assert (c' = c) as ->.
    { apply HCl. rewrite H5. inversion H as [x y z H7 H8|ca t sub evs H7]; subst.
      - destruct (presented_fun _ _ _ _ _ _ _ _ HP H7) as (<- & <- & <-). left. reflexivity.
      - destruct H7 as (_ & HN & _). destruct (HN _ _ _ HP). }
    rewrite (registered_fun _ _ _ _ H0 HR) in H6. exists th', now', e, d. split; [|split; [|exact H6]].
    + rewrite H5. intros w Hw. apply in_or_app. right. right. apply in_or_app. auto.
    + rewrite H5. apply in_or_app. right. left. reflexivity.
  - contradiction.
Qed.
Lemma sound_not_broken tr : (forall o a, In (Ev o a) tr -> exists s1 s2, sstep false s1 o a s2) -> sound_run tr -> ~ broke_down tr.
Proof.
  intros HK HS ([o a] & HI & HF). destruct (HK _ _ HI) as (s1 & s2 & H).
  destruct (sstep_broken _ _ _ _ _ H HF) as (u & c & ->). exact (HS _ _ _ HI).
Qed.

Lemma code_ops J r c now : wp no_lookup (fun _ _ => True) [] (authorization_code J r c now).
Proof. eapply guard_weaken; [|apply authorization_code_wp]. intros h o H u w ->. exact H. Qed.
Lemma code_never_panics J c now th x r : exec (authorization_code J r c now) th x -> x <> Panicked.
Proof. intros H -> . apply (wp_exec _ _ _ _ _ (authorization_code_wp _ _ _ _)) in H. tauto. Qed.

Lemma some_inj {A} (x y : A) : Some x = Some y -> x = y. Proof. congruence. Qed.

(** The exchange: granted exactly if the store knows the code and everything agrees with it. *)
Lemma code_iff J te r cid sec b tr res s s' :
  only_bundled J te -> r_method r = "POST" -> form_value r "grant_type" <> "" -> registered te (form_value r "grant_type") (authorization_code J) ->
  (forall c cs, sget cid (st_clients s) = Some c -> exists tok, signed_for J c cs tok) ->
  presented te r cid sec b -> rrun (sstep false) s (token_handler J te r) tr res s' ->
  In 200%Z (statuses tr) <-> exists c, admits s r cid sec c /\ code_asks s r c.
Proof.
  intros HB HM HG HR HSg HP HX. pose proof (rrun_exec _ _ _ _ _ _ HX) as HE.
  assert (HL : forall o a, In (Ev o a) tr -> lookup o -> lookup_ans o a s).
  { intros o a HI HL. destruct (code_lookups _ _ _ _ _ _ _ _ _ HR (ex_intro _ _ (ex_intro _ _ (ex_intro _ _ HP))) HX HI HL) as (s1 & H). exact (sstep_lookup _ _ _ _ H). }
  assert (HS : forall code a, In (Ev (OFindSession code) a) tr -> a = match sget code (st_sessions s) with Some x => (Some x, None) | None => failed end).
  { intros code a HI. apply (HL _ _ HI). left. eauto. }
  assert (HIn : forall id a, In (Ev (OFindActiveInfo id) a) tr -> a = match zget id (st_infos s) with Some x => (Some x, None) | None => failed end).
  { intros id a HI. apply (HL _ _ HI). right. eauto. }
  assert (HA : forall o a, In (Ev o a) tr -> exists s1, lookup_ans o a s1).
  { intros o a HI. destruct (rrun_events _ _ _ _ _ _ HX o a HI) as (s1 & s2 & _ & _ & H). exists s1. exact (sstep_lookup _ _ _ _ H). }
  split.
  - intros HI. destruct (presented_success _ _ _ _ _ _ _ _ _ _ HB HX HP HI) as (h' & c & now & th & rs & H1 & H2 & H3 & H4 & H5 & H6).
    rewrite (registered_fun _ _ _ _ H1 HR) in H2. exists c. split; [exact (conj H4 (conj H5 H6))|].
    apply (wp_exec _ _ _ _ _ (authorization_code_wp _ _ _ _)) in H2. destruct H2 as (_ & _ & sess & info & tok & HC & _ & _ & _ & _ & rest & HD & _).
    assert (HT : incl (found_calls r sess info) tr).
    { intros x Hx. apply H3. assert (Y : In x (data_calls th)) by (rewrite HD; apply in_or_app; auto). apply filter_In in Y. apply Y. }
    exists sess, info. split; [|split; [|exact HC]].
    + pose proof (HS _ _ (HT _ (or_introl eq_refl))) as X. destruct (sget (form_value r "code") (st_sessions s)); [|discriminate X]. injection X as <-. reflexivity.
    + pose proof (HIn _ _ (HT _ (or_intror (or_introl eq_refl)))) as X. destruct (zget (as_auth_id sess) (st_infos s)); [|discriminate X]. injection X as <-. reflexivity.
  - intros (c & HAd & sess & info & HSe & HIf & HC1 & HC2 & HC3 & HC4 & HC5).
    pose proof (presented_done _ _ _ _ _ _ _ _ _ HP HR (fun c now th x => code_never_panics J c now th x r) HE) as ->.
    destruct (in_dec Z.eq_dec 200%Z (statuses tr)) as [HI|HI]; [exact HI|exfalso].
    assert (HSR : sound_run tr) by (intros u x a; exact (no_lookup_in _ _ _ _ _ _ _ _ _ HR (code_ops J r) HE)).
    assert (HNB : ~ broke_down tr).
    { apply sound_not_broken; [|exact HSR]. intros o a HI'. destruct (rrun_events _ _ _ _ _ _ HX o a HI') as (s1 & s2 & _ & _ & H). eauto. }
    destruct (grant_reason _ _ _ _ _ _ _ _ _ _ _ HB HM HG HR HP HX HAd HNB HI) as (th & now & e & d & HT & _ & HF).
    assert (HS' : forall x, In (Ev (OFindSession (form_value r "code")) (Some x, None)) th -> x = sess).
    { intros x H. apply HT, HS in H. rewrite HSe in H. congruence. }
    assert (HI2 : forall x i, incl (found_calls r x i) th -> x = sess /\ i = info).
    { intros x i H. assert (x = sess) as -> by (apply HS', H; left; reflexivity). split; [reflexivity|].
      pose proof (HIn _ _ (HT _ (H _ (or_intror (or_introl eq_refl))))) as X. rewrite HIf in X. congruence. }
    inversion HF as [t d' H E|t d' H E|t d' H E|t d' H E|t d' H E];
      try (match goal with X : _ = authorization_code J |- _ => apply (f_equal first_param) in X; rewrite ?first_code, ?first_refresh, ?first_password, ?first_client, ?first_jwt in X; discriminate X end).
    subst. destruct H as [k H H0|H|x H H0|x i H H0|x H H0|x k H H0 H1 H2|x H H0 H1|x H H0 H1 H2 H3|x i H H0|x H H0|x i iss cs H H0 H1 H2 H3|H].
    + destruct H as [<-|[<-|[]]]; contradiction.
    + destruct H as (a & H & H0). apply HT, HS in H. rewrite HSe in H. subst a. discriminate H0.
    + apply HS' in H. subst x. destruct H0 as (a & H & H0). apply HT, HIn in H. rewrite HIf in H. subst a. discriminate H0.
    + destruct (HI2 _ _ H) as [-> ->]. contradiction.
    + apply HS' in H. subst x. contradiction.
    + apply HS' in H. subst x. destruct HC5 as [HC5|HC5]; [contradiction|].
      destruct H1 as [<-|[<-|[]]]; rewrite H2 in HC5.
      * destruct HC5 as [[HC5 _]|[HC5 _]]; discriminate HC5.
      * destruct HC5 as [[_ HC5]|[_ HC5]]; [congruence|].
        rewrite <- UtilsFacts.b64url_nopad_rfc in HC5. change "" with (b64url_nopad "") in HC5. apply UtilsFacts.b64url_nopad_inj in HC5.
        pose proof (ShaFacts.sha256_length (as_verifier sess)) as HLn. rewrite <- HC5 in HLn. discriminate HLn.
    + apply HS' in H. subst x. destruct HC5 as [HC5|[[HC5 _]|[HC5 _]]]; [contradiction| |]; apply H1; rewrite HC5; simpl; auto.
    + apply HS' in H. subst x. destruct HC5 as [HC5|HC5]; contradiction.
    + destruct H0 as (a & H0 & H1). apply HT, HA in H0. destruct H0 as (s1 & t & ->). discriminate H1.
    + destruct H0 as (a & H0 & H1). apply HT, HA in H0. destruct H0 as (s1 & H0). cbn in H0. subst a. discriminate H1.
    + destruct HAd as (HAd & _). destruct (HSg _ cs HAd) as (tok & HTk). exact (H3 _ HTk).
    + apply HNB. destruct H as (ev & H & H0). exists ev. split; [apply HT; exact H|exact H0].
Qed.

(** ** Refresh tokens *)
Definition refresh_lookup (o : op) : Prop := (exists c, o = OFindByRefresh c) \/ exists i, o = OFindActiveInfo i.
Lemma refresh_lookups J te r s tr res s' o a : only_bundled J te ->
  registered te (form_value r "grant_type") refresh_token -> (exists cid sec b, presented te r cid sec b) ->
  rrun (sstep false) s (token_handler J te r) tr res s' -> In (Ev o a) tr -> refresh_lookup o -> exists s1, sstep false s o a s1.
Proof.
  intros _ HR HP HX HI HL. pose proof (rrun_exec _ _ _ _ _ _ HX) as HE. apply in_split in HI. destruct HI as (t1 & t2 & E).
  apply (rrun_quiet _ _ _ _ _ _ HX _ _ _ _ E). intros ev HI.
  destruct (granted_event _ _ _ _ _ _ _ _ _ HE E) as (h & c & now & th & x & t & t' & H1 & H2 & H3 & H4); [destruct HL as [(y & ->)|(y & ->)]; reflexivity|].
  rewrite (registered_fun _ _ _ _ H1 HR) in H3. pose proof (exec_guard _ _ _ _ _ _ _ _ _ (refresh_token_wp _ _ _) H3 H4) as HG.
  destruct H2 as (ta & HA & ->). apply in_app_or in HI. destruct HI as [HI|[<-|HI]]; [|reflexivity|].
  - destruct HP as (cid & sec & b & HP). inversion HA; subst.
    + destruct HI as [<-|[]]. reflexivity.
    + destruct H as (_ & HN & _). destruct (HN _ _ _ HP).
  - destruct (is_update (ev_op ev)) eqn:EU; [exfalso|reflexivity].
    assert (HD : In ev (data_calls t)) by (apply filter_In; split; [exact HI|destruct ev as [oo aa]; cbn [ev_op] in *; destruct oo; try discriminate EU; reflexivity]).
    unfold refresh_guard in HG. destruct HL as [(y & ->)|(y & ->)].
    + destruct HG as (_ & _ & HG). rewrite HG in HD. destruct HD.
    + destruct HG as (sess & _ & HG). rewrite HG in HD. destruct HD as [<-|[]]. discriminate EU.
Qed.

Definition refresh_ans (o : op) : ans o -> store -> Prop :=
  match o as o0 return ans o0 -> store -> Prop with
  | OFindByRefresh t => fun a s => match a with
      | (Some x, None) => exists k, In (k, x) (st_tokens s) /\ ot_refresh x = t
      | (None, Some ErrFailed) => forall k x, In (k, x) (st_tokens s) -> ot_refresh x <> t
      | _ => False
      end
  | OFindActiveInfo id => fun a s => a = match zget id (st_infos s) with Some i => (Some i, None) | None => failed end
  | ORefresh _ _ => fun a _ => exists t, a = (Some t, None)
  | _ => fun _ _ => True
  end.
Lemma sstep_refresh s o a s1 : sstep false s o a s1 -> refresh_ans o a s.
Proof. intros H. destruct H; cbn; eauto. Qed.

Lemma refresh_ops r c now : wp no_lookup (fun _ _ => True) [] (refresh_token r c now).
Proof. eapply guard_weaken; [|apply refresh_token_wp]. intros h o H u w ->. exact H. Qed.
Lemma refresh_never_panics c now th x r : exec (refresh_token r c now) th x -> x <> Panicked.
Proof. intros H -> . apply (wp_exec _ _ _ _ _ (refresh_token_wp _ _ _)) in H. tauto. Qed.

(* A token that the store may find, and that is good for this request at time [now]. *)
Definition good_for (s : store) (r : request) (c : client) (now : Z) (old : oauthtoken) : Prop :=
  (now <= add64 (ot_refresh_expires old) (ot_created old))%Z /\
  exists info, zget (ot_auth_id old) (st_infos s) = Some info /\ ai_client info = c_id c /\ has_word (ai_scope info) "offline_access".
Definition may_find (s : store) (t : string) (old : oauthtoken) : Prop := exists k, In (k, old) (st_tokens s) /\ ot_refresh old = t.

Section Refresh.
  Context (J : jwtlib) (te : token_endpoint) (r : request) (cid sec : string) (b : bool) (tr : list event) (res : outcome unit) (s s' : store)
    (HB : only_bundled J te) (HM : r_method r = "POST") (HG : form_value r "grant_type" <> "") (HR : registered te (form_value r "grant_type") refresh_token)
    (HP : presented te r cid sec b) (HX : rrun (sstep false) s (token_handler J te r) tr res s').
  Lemma refresh_says o a : In (Ev o a) tr -> refresh_lookup o -> refresh_ans o a s.
  Proof.
    intros HI HL. destruct (refresh_lookups _ _ _ _ _ _ _ _ _ HB HR (ex_intro _ _ (ex_intro _ _ (ex_intro _ _ HP))) HX HI HL) as (s1 & H). exact (sstep_refresh _ _ _ _ H).
  Qed.
  Lemma refresh_only : In 200%Z (statuses tr) -> exists c old now, admits s r cid sec c /\ form_value r "refresh_token" <> "" /\
    may_find s (form_value r "refresh_token") old /\ In (Ev ONow now) tr /\ good_for s r c now old.
  Proof.
    intros HI. pose proof (rrun_exec _ _ _ _ _ _ HX) as HE.
    destruct (success_run _ _ _ _ _ HB HE HI) as (h' & c & ta & now & th & rs & l & H1 & H2 & H3 & H4 & HEq & _).
    destruct (presented_success _ _ _ _ _ _ _ _ _ _ HB HX HP HI) as (h2 & c2 & now2 & th2 & rs2 & H1' & _ & _ & G4 & G5 & G6).
    assert (c2 = c) as ->.
    { assert (HC : In (Ev (OFindClient cid) (Some c, None)) tr).
      { inversion H2; subst; [|destruct H as (_ & HN & _); destruct (HN _ _ _ HP)].
        destruct (presented_fun _ _ _ _ _ _ _ _ HP H) as (<- & <- & <-). left. reflexivity. }
      apply (knows_ans s) in HC; [|intros o a; exact (rrun_events _ _ _ _ _ _ HX o a)]. cbn in HC. rewrite G4 in HC. congruence. }
    rewrite (registered_fun _ _ _ _ H1 HR) in H4.
    apply (wp_exec _ _ _ _ _ (refresh_token_wp _ _ _)) in H4. destruct H4 as (_ & _ & old & info & tok & (C1 & C2 & C3 & C4) & HD & _).
    assert (HT : incl (refresh_found r old info) tr).
    { intros x Hx. assert (Y : In x (data_calls th)) by (rewrite HD; apply in_or_app; auto). apply filter_In in Y. rewrite HEq. apply in_or_app. right. right. apply in_or_app. left. apply Y. }
    exists c, old, now. split; [exact (conj G4 (conj G5 G6))|]. split; [exact C1|].
    split. { exact (refresh_says _ _ (HT _ (or_introl eq_refl)) (or_introl (ex_intro _ _ eq_refl))). }
    split. { rewrite HEq. apply in_or_app. right. left. reflexivity. }
    split; [exact C2|]. exists info. split; [|auto].
    pose proof (refresh_says _ _ (HT _ (or_intror (or_introl eq_refl))) (or_intror (ex_intro _ _ eq_refl))) as X. cbn in X.
    destruct (zget (ot_auth_id old) (st_infos s)); [|discriminate X]. congruence.
  Qed.
  Lemma refresh_if c : admits s r cid sec c -> form_value r "refresh_token" <> "" ->
    (exists old, may_find s (form_value r "refresh_token") old) ->
    (forall old now, may_find s (form_value r "refresh_token") old -> In (Ev ONow now) tr -> good_for s r c now old) ->
    In 200%Z (statuses tr).
  Proof.
    intros HAd HF0 (o0 & k0 & HM1 & HM2) HAll. pose proof refresh_says as RS. pose proof HX as HX1. pose proof (rrun_exec _ _ _ _ _ _ HX1) as HE.
    pose proof (presented_done _ _ _ _ _ _ _ _ _ HP HR (fun c now th x => refresh_never_panics c now th x r) HE) as Hres.
    destruct (in_dec Z.eq_dec 200%Z (statuses tr)) as [HI|HI]; [exact HI|exfalso].
    assert (HSR : sound_run tr) by (intros u x a; exact (no_lookup_in _ _ _ _ _ _ _ _ _ HR (refresh_ops r) HE)).
    assert (HNB : ~ broke_down tr).
    { apply sound_not_broken; [|exact HSR]. intros o a HI'. destruct (rrun_events _ _ _ _ _ _ HX o a HI') as (s1 & s2 & _ & _ & H). eauto. }
    pose proof HX as HX'. rewrite Hres in HX'.
    destruct (grant_reason _ _ _ _ _ _ _ _ _ _ _ HB HM HG HR HP HX' HAd HNB HI) as (th & now & e & d & HT & HN & HF).
    assert (HS' : forall x, In (Ev (OFindByRefresh (form_value r "refresh_token")) (Some x, None)) th -> good_for s r c now x).
    { intros x H. apply HAll; [|exact HN]. exact (RS _ _ (HT _ H) (or_introl (ex_intro _ _ eq_refl))). }
    assert (HIn : forall id a, In (Ev (OFindActiveInfo id) a) th -> a = match zget id (st_infos s) with Some x => (Some x, None) | None => failed end).
    { intros id a H. exact (RS _ _ (HT _ H) (or_intror (ex_intro _ _ eq_refl))). }
    assert (HI2 : forall x i, incl (refresh_found r x i) th -> ai_client i = c_id c /\ has_word (ai_scope i) "offline_access").
    { intros x i H. destruct (HS' _ (H _ (or_introl eq_refl))) as (_ & j & J1 & J2).
      pose proof (HIn _ _ (H _ (or_intror (or_introl eq_refl)))) as X. rewrite J1 in X. assert (i = j) as -> by congruence. exact J2. }
    inversion HF as [t d' H E|t d' H E|t d' H E|t d' H E|t d' H E];
      try (match goal with X : _ = refresh_token |- _ => apply (f_equal first_param) in X; rewrite ?first_code, ?first_refresh, ?first_password, ?first_client, ?first_jwt in X; discriminate X end).
    subst. destruct H as [H|H|x H H0|x H H0|x i H H0|x i H H0|x i H H0|H].
    - contradiction.
    - destruct H as (a & H & H0). pose proof (RS _ _ (HT _ H) (or_introl (ex_intro _ _ eq_refl))) as X. cbn in X.
      destruct a as [[y|] [[]|]]; try discriminate H0; try destruct X; exact (X _ _ HM1 HM2).
    - destruct (HS' _ H) as (X & _). lia.
    - destruct (HS' _ H) as (_ & j & J1 & _). destruct H0 as (a & H0 & H1). apply HIn in H0. rewrite J1 in H0. subst a. discriminate H1.
    - destruct (HI2 _ _ H) as [X _]. contradiction.
    - destruct (HI2 _ _ H) as [_ X]. contradiction.
    - destruct H0 as (a & H0 & H1). apply HT in H0. destruct (rrun_events _ _ _ _ _ _ HX1 _ _ H0) as (s1 & s2 & _ & _ & X). apply sstep_refresh in X. destruct X as (t & ->). discriminate H1.
    - apply HNB. destruct H as (ev & H & H0). exists ev. split; [apply HT; exact H|exact H0].
  Qed.
End Refresh.

(** ** Assertions as grants *)
Definition jwt_ans (o : op) : ans o -> store -> Prop :=
  match o as o0 return ans o0 -> store -> Prop with
  | OFindUserBySub sub => fun a s => match a with
      | (id, None) => exists p, In (id, sub, p) (st_users s)
      | (_, Some e) => e = ErrFailed /\ forall id p, ~ In (id, sub, p) (st_users s) end
  | OIssuer => fun a _ => a = "http://example.org/"
  | ORecord _ _ _ _ => fun a _ => a = None
  | _ => fun _ _ => True
  end.
Lemma sstep_jwt s o a s1 : sstep false s o a s1 -> jwt_ans o a s.
Proof. intros H. destruct H; cbn; eauto. Qed.

Lemma jwt_ops J r c now : wp no_lookup (fun _ _ => True) [] (jwt_grant J r c now).
Proof. eapply guard_weaken; [|apply jwt_grant_wp]. intros h o H u w ->. exact (proj2 H). Qed.
Lemma jwt_never_panics J c now th x r : exec (jwt_grant J r c now) th x -> x <> Panicked.
Proof. intros H -> . apply (wp_exec _ _ _ _ _ (jwt_grant_wp _ _ _ _)) in H. tauto. Qed.

(* The assertion names a user: *)
Definition asserts (J : jwtlib) (s : store) (r : request) (c : client) (tr : list event) : Prop :=
  exists t exp sub uid p, form_value r "assertion" <> "" /\ verified J (form_value r "assertion") c t /\
    (forall now, In (Ev OJwtNow now) tr -> current J now t) /\ claim_int t "exp" = Some exp /\
    jstr "aud" (jt_claims t) = Some "http://example.org/" /\ jstr "sub" (jt_claims t) = Some sub /\ In (uid, sub, p) (st_users s).

Lemma jwt_iff J te r cid sec b tr res s s' :
  only_bundled J te -> r_method r = "POST" -> form_value r "grant_type" <> "" -> registered te (form_value r "grant_type") (jwt_grant J) ->
  presented te r cid sec b -> rrun (sstep false) s (token_handler J te r) tr res s' ->
  In 200%Z (statuses tr) <-> exists c, allowed s r cid sec c /\ asserts J s r c tr.
Proof.
  intros HB HM HG HR HP HX. pose proof (rrun_exec _ _ _ _ _ _ HX) as HE.
  assert (HK : knows s tr) by (intros o a; exact (rrun_events _ _ _ _ _ _ HX o a)).
  assert (HA : forall o a, In (Ev o a) tr -> jwt_ans o a s).
  { intros o a HI. destruct (HK o a HI) as (s1 & s2 & HU & _ & H). apply sstep_jwt in H. destruct o; cbn in *; rewrite ?HU in H; exact H. }
  split.
  - intros HI. destruct (success_run _ _ _ _ _ HB HE HI) as (h' & c & ta & now & th & rs & l & H1 & H2 & H3 & H4 & HEq & _ & _ & HCl & _).
    destruct (presented_success _ _ _ _ _ _ _ _ _ _ HB HX HP HI) as (_ & c2 & _ & _ & _ & _ & _ & _ & G4 & G5 & G6).
    assert (HTa : ta = [Ev (OFindClient cid) (Some c, None)]).
    { inversion H2; subst; [|destruct H as (_ & HN & _); destruct (HN _ _ _ HP)].
      destruct (presented_fun _ _ _ _ _ _ _ _ HP H) as (<- & <- & <-). reflexivity. }
    assert (c2 = c) as ->.
    { assert (HC : In (Ev (OFindClient cid) (Some c, None)) tr) by (rewrite HEq, HTa; left; reflexivity).
      apply (knows_ans s _ _ _ HK) in HC. cbn in HC. rewrite G4 in HC. congruence. }
    rewrite (registered_fun _ _ _ _ H1 HR) in H4.
    apply (wp_exec _ _ _ _ _ (jwt_grant_wp _ _ _ _)) in H4. destruct H4 as (_ & _ & h0 & uid & info & tok & (t & evs & sub & I1 & I2 & I3 & I4) & HD & HCa & _).
    exists c. split; [exact (conj G4 (conj G5 (conj G6 HD)))|].
    pose proof I2 as (n & exp & iss & V & CU & EX & AU & NE & EV). subst h0 evs.
    assert (HT : incl (calls th) tr).
    { intros x Hx. apply filter_In in Hx. rewrite HEq. apply in_or_app. right. right. apply in_or_app. left. apply Hx. }
    rewrite HCa in HT.
    assert (iss = "http://example.org/") as ->. { exact (HA OIssuer iss (HT _ (or_intror (or_intror (or_introl eq_refl))))). }
    assert (X : exists p, In (uid, sub, p) (st_users s)). { exact (HA _ _ (HT (Ev (OFindUserBySub sub) (uid, None)) (or_intror (or_intror (or_intror (or_introl eq_refl)))))). }
    destruct X as (p & X). exists t, exp, sub, uid, p. repeat split; auto; try apply V.
    intros m Hm. assert (Y : In (Ev OJwtNow m) (calls tr)) by (apply filter_In; auto).
    assert (YC : calls tr = ([Ev (OFindClient cid) (Some c, None)] ++ Ev ONow now :: calls th ++ calls l)%list).
    { rewrite HEq, HTa. unfold calls. rewrite filter_app. cbn [filter is_call ev_op]. rewrite filter_app. reflexivity. }
    rewrite YC, HCl, HCa in Y. cbn [app direct_calls In] in Y.
    repeat (destruct Y as [Y|Y]; [try discriminate Y|]); try contradiction. apply (f_equal clock_ans) in Y. injection Y as <-. exact CU.
  - intros (c & (H1 & H2 & H3 & H4) & t & exp & sub & uid & p & A1 & A2 & A3 & A4 & A5 & A6 & A7).
    pose proof (presented_done _ _ _ _ _ _ _ _ _ HP HR (fun c now th x => jwt_never_panics J c now th x r) HE) as ->.
    destruct (in_dec Z.eq_dec 200%Z (statuses tr)) as [HI|HI]; [exact HI|exfalso].
    assert (HSR : sound_run tr) by (intros u x a; exact (no_lookup_in _ _ _ _ _ _ _ _ _ HR (jwt_ops J r) HE)).
    assert (HNB : ~ broke_down tr) by (exact (not_broken _ _ HK HSR)).
    destruct (grant_reason _ _ _ _ _ _ _ _ _ _ _ HB HM HG HR HP HX (conj H1 (conj H2 H3)) HNB HI) as (th & now & e & d & HT & _ & HF).
    assert (HNB' : ~ broke_down th) by (intros (ev & X & Y); apply HNB; exists ev; auto).
    assert (HK' : knows s th) by (intros o a HI'; exact (HK _ _ (HT _ HI'))).
    assert (HS' : sound_run th) by (intros u w a HI'; exact (HSR _ _ _ (HT _ HI'))).
    inversion HF as [t0 d' H E|t0 d' H E|t0 d' H E|t0 d' H E|t0 d' H E];
      try (match goal with X : _ = jwt_grant J |- _ => apply (f_equal first_param) in X; rewrite ?first_code, ?first_refresh, ?first_password, ?first_client, ?first_jwt in X; discriminate X end).
    subst. destruct H as [H|x d' H|t' H H0|t' s0 H H0 H5|u s0 x d' H H0].
    + contradiction.
    + destruct H as [H|H|t' H H5|t' k H H5 H6|t' n H H5 H6|t' n H H5 H6|t' n H H5 H6|t' H H5|t' x H H5 H6|t' H H5|t' aud iss H H5 H6 H7|H|H];
        try (destruct A2 as (A2 & k' & A8 & A9); congruence);
        try (apply (verified_fun _ _ _ _ _ A2) in H; subst t');
        try (apply HT, A3 in H5; unfold current in H5; rewrite H5 in H6; discriminate H6);
        try congruence.
      * destruct H6 as (a & H6 & H7). apply HT, HA in H6. cbn in H6. subst a. discriminate H7.
      * apply HT, HA in H6. cbn in H6. congruence.
      * apply HT, HA in H. discriminate H.
    + apply (verified_fun _ _ _ _ _ A2) in H. subst t'. congruence.
    + apply (verified_fun _ _ _ _ _ A2) in H. subst t'. assert (s0 = sub) as -> by congruence. destruct H5 as (a & H5 & H6).
      apply HT, HA in H5. cbn in H5. destruct a as [u [e|]]; [|discriminate H6]. destruct H5 as [_ H5]. exact (H5 _ _ A7).
    + exact (direct_impossible _ _ _ _ _ _ _ HK' HS' H4 H0).
Qed.
