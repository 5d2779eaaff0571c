(** * Proofs for C93. *)
From Coq Require Import Lia.
From Verif Require Import WpTac Utils OAuthError IdToken Assertion Grants TokenEndpoint
  TokenSpec UtilsFacts GrantFacts TokenFacts TokenProofs LogFacts ResourceProtector AuthzResponse AuthzEndpoint ReportSpec.

Definition final (h : list event) : option event := match rev h with e :: _ => Some e | [] => None end.
Lemma final_snoc h e : final (h ++ [e])%list = Some e.
Proof. unfold final. rewrite rev_app_distr. reflexivity. Qed.
Lemma final_inv h e : final h = Some e -> exists t, h = (t ++ [e])%list.
Proof.
  unfold final. destruct (rev h) as [|x l] eqn:E; [discriminate|]. injection 1 as ->. exists (rev l).
  rewrite <- (rev_involutive h), E. reflexivity.
Qed.

(** [e] is the last event, [o] the next step. *)
Definition rguard : guard := fun h o =>
  match final h with
  | Some e =>
      (forall b, breakdown_of e = Some b ->
         exists m attrs, o = OLog (report_level b) (report_kind b) (("method", m) :: attrs) /\ reported_as (ev_op e) m)
  | None => True
  end /\
  match o with
  | OLog l k _ => forall b, k = report_kind b ->
      match final h with
      | Some e => l = report_level b /\ (breakdown_of e = Some b \/ b = NotProvided /\ e = Ev OIssuer "")
      | None => False
      end
  | _ => True
  end.

Definition calm (h : list event) : Prop := forall e, final h = Some e -> breakdown_of e = None.
Definition rpost {A} : post A := fun h _ => calm h.

Ltac rleaf :=
  lazymatch goal with
  | |- rguard _ _ => unfold rguard; rewrite ?final_snoc; cbn [ev_op];
      split;
      [ try exact I;
        let b := fresh "b" in let HB := fresh "HB" in
        intros b HB; simpl in HB;
        first [ discriminate HB
              | injection HB as <-; do 2 eexists; split; reflexivity ]
      | try exact I;
        let b := fresh "b" in let HB := fresh "HB" in
        intros b HB; destruct b; simpl in HB;
        first [ discriminate HB
              | split; [reflexivity|first [left; reflexivity|right; split; [reflexivity|first [reflexivity|subst; reflexivity]]]] ] ]
  | |- rpost _ _ => unfold rpost, calm; rewrite ?final_snoc;
      first [let e := fresh in let H := fresh in intros e H; injection H as <-; reflexivity ]
  end.

Lemma calm_nil : calm [].
Proof. intros e H. discriminate H. Qed.
Lemma calm_snoc h o x : breakdown_of (Ev o x) = None -> calm (h ++ [Ev o x])%list.
Proof. intros H e. rewrite final_snoc. injection 1 as <-. exact H. Qed.

Lemma rguard_calm h o : calm h -> match o with OLog _ k _ => forall b, k <> report_kind b | _ => True end -> rguard h o.
Proof.
  intros HC HO. split.
  - destruct (final h) eqn:E; [|exact I]. intros b HB. rewrite (HC _ E) in HB. discriminate HB.
  - destruct o; auto. intros b HB. destruct (HO b HB).
Qed.

Ltac rfirst := apply rguard_calm; [assumption|first [exact I | let b := fresh in intros b; destruct b; discriminate]].
Ltac rleaves := lazymatch goal with
  | |- rpost ?h _ => first [is_var h; assumption|rleaf]
  | |- rguard ?h _ => first [is_var h; rfirst|rleaf] end.

Lemma handler_reports J h r c now : bundled J h -> forall t, calm t -> wp rguard rpost t (h r c now).
Proof.
  intros [] t Ht.
  - unfold_grants. wp_go; unfold refuse; wp_end; rleaves.
  - unfold_grants. wp_go; unfold refuse; wp_end; rleaves.
  - unfold_grants. wp_go; unfold refuse; wp_end; rleaves.
  - unfold_grants. wp_go; unfold refuse; wp_end; rleaves.
  - unfold jwt_grant, jwt_parse, handle_assertion_error, grant_keyf, with_id. unfold_grants.
    wp_go; unfold refuse; wp_end; rleaves.
Qed.

Lemma rpost_calm {A} (h : list event) (a : outcome A) : rpost h a -> calm h.
Proof. auto. Qed.

Lemma te_fail_reports te e t : calm t -> wp rguard rpost t (te_fail te e).
Proof. intros Ht. unfold te_fail, set_common_headers. wp_go; rleaves. Qed.
Lemma te_fail_auth_reports te e t : calm t -> wp rguard rpost t (te_fail_auth te e).
Proof. intros Ht. unfold te_fail_auth, set_common_headers. wp_go; rleaves. Qed.

Lemma execute_reports J te r c h t : bundled J h -> calm t -> wp rguard rpost t (execute_grant te r c h).
Proof.
  intros HB Ht. unfold execute_grant. cbn [bind call]. apply wp_vis; [rfirst|]. intros now.
  apply wp_bind. eapply wp_post; [|apply (handler_reports J _ _ _ _ HB); apply calm_snoc; reflexivity].
  intros h' [[rs|e]|] HP; [| |exact HP]; apply rpost_calm in HP.
  - unfold te_success, set_common_headers, logm, call. wp_go; rleaves.
  - apply te_fail_reports. exact HP.
Qed.

Lemma secret_reports te r gt cid sec b t : calm t -> wp rguard rpost t (validate_by_secret te r gt cid sec b).
Proof. intros Ht. unfold validate_by_secret. unfold_te. wp_go; rleaves. Qed.
Lemma assertion_reports J te ca t : calm t -> wp rguard rpost t (validate_by_assertion J te ca).
Proof.
  intros Ht. unfold validate_by_assertion, jwt_parse, handle_assertion_error, te_keyf, with_id.
  unfold_te. wp_go; rleaves.
Qed.

Lemma find_handler_in gt l h : find_handler gt l = Some h -> exists gt', In (gt', h) l.
Proof.
  induction l as [|[g h'] l IH]; simpl; [discriminate|]. destruct (gt =s? g).
  - injection 1 as ->. exists g. auto.
  - intros H. destruct (IH H) as [g' Hg]. exists g'. auto.
Qed.

Lemma token_reports J te r : only_bundled J te -> wp rguard rpost [] (token_handler J te r).
Proof.
  intros HB. pose proof calm_nil as H0. unfold token_handler.
  destruct (negb (r_method r =s? "POST")). { wp_go; [rfirst|rleaves..]. }
  destruct (form_value r "grant_type" =s? "").
  { unfold te_fail, set_common_headers. wp_go; [rfirst|rleaves..]. }
  destruct (find_handler _ _) as [h|] eqn:EH.
  2: { unfold te_fail, set_common_headers. wp_go; [rfirst|rleaves..]. }
  destruct (find_handler_in _ _ _ EH) as [gt' Hin]. pose proof (HB _ _ Hin) as Hb.
  destruct (find_client_credential te r) as [[[cid sec] b]|].
  - apply wp_bind. eapply wp_post; [|apply secret_reports; exact H0].
    intros h' [[c|]|] HP; [| |exact HP]; apply rpost_calm in HP; [apply (execute_reports J); auto|apply wp_ret; exact HP].
  - destruct (if te_accept_assertion te then _ else _) as [ca|].
    + apply wp_bind. eapply wp_post; [|apply assertion_reports; exact H0].
      intros h' [[c|]|] HP; [| |exact HP]; apply rpost_calm in HP; [apply (execute_reports J); auto|apply wp_ret; exact HP].
    + unfold te_fail_auth, set_common_headers. wp_go; [rfirst|rleaves..].
Qed.

Lemma next_step {A} (Q : post A) p tr res t1 e t2 : wp rguard Q [] p -> exec p tr res ->
  tr = (t1 ++ e :: t2)%list ->
  match t2 with
  | [] => True
  | e' :: _ => rguard (t1 ++ [e])%list (ev_op e')
  end.
Proof.
  intros HW HX HE. destruct t2 as [|e' t3]; [exact I|].
  apply (wp_guard _ _ _ _ _ (t1 ++ [e])%list e' t3 HW HX). rewrite <- app_assoc. exact HE.
Qed.

Lemma reported_here {A} (Q : post A) p tr res t1 e t2 b : wp rguard Q [] p -> exec p tr res ->
  tr = (t1 ++ e :: t2)%list -> breakdown_of e = Some b -> t2 <> [] ->
  exists e' t3, t2 = e' :: t3 /\ reports (ev_op e) b e'.
Proof.
  intros HW HX HE HB HN. pose proof (next_step Q p tr res t1 e t2 HW HX HE) as H.
  destruct t2 as [|e' t3]; [destruct (HN eq_refl)|]. exists e', t3. split; [reflexivity|].
  destruct H as [H _]. rewrite final_snoc in H. destruct (H b HB) as (m & attrs & E & R). exists m, attrs. auto.
Qed.

Lemma all_reported {A} p tr (res : outcome A) : wp rguard rpost [] p -> exec p tr res -> breakdowns_reported tr.
Proof.
  intros HW HX t1 e t2 b HE HB. apply (reported_here rpost p tr res t1 e t2 b HW HX HE HB).
  intros ->. pose proof (wp_exec _ _ _ _ _ HW HX) as HQ. subst tr. pose proof (HQ e (final_snoc _ _)) as H. congruence.
Qed.

Lemma reports_sound {A} (Q : post A) p tr res : wp rguard Q [] p -> exec p tr res -> reports_true tr.
Proof.
  intros HW HX t1 l b attrs u t2 HE. destruct (wp_guard _ _ _ _ _ t1 _ t2 HW HX HE) as [_ H].
  cbn [ev_op] in H. specialize (H b eq_refl). destruct (final t1) as [e|] eqn:EF; [|destruct H].
  destruct (final_inv _ _ EF) as [t0 ->]. exists t0, e. tauto.
Qed.

(** ** The resource protector *)
Definition ppost {A} : post A := fun h x =>
  match x with
  | Done _ => calm h
  | Panicked => exists t id, h = (t ++ [Ev (OFindActiveInfo id) (None, None)])%list
  end.

Lemma validate_reports rp r : wp rguard ppost [] (validate rp r).
Proof.
  pose proof calm_nil as H0. unfold validate, unauthorize, dcheck.
  wp_go; lazymatch goal with
  | |- rguard [] _ => rfirst
  | |- rguard _ _ => rleaf
  | |- ppost _ _ => unfold ppost; first [apply calm_snoc; reflexivity | eauto]
  end.
Qed.

Lemma validate_scopes_reports rp r m : wp rguard ppost [] (validate_with_scopes rp r m).
Proof.
  unfold validate_with_scopes. apply wp_bind. eapply wp_post; [|apply validate_reports].
  intros h [[ok r']|] HP; [|exact HP]. cbn beta iota in HP. unfold ppost in HP.
  destruct (negb ok); [apply wp_ret; exact HP|].
  destruct (sm_get _ _) as [scopes|]; [|apply wp_ret; exact HP].
  destruct (scope_include_all _ _) as [all missing]. destruct all; [apply wp_ret; exact HP|].
  unfold unauthorize. wp_go; lazymatch goal with
  | |- rguard ?h _ => first [is_var h; rfirst|rleaf]
  | |- ppost _ _ => apply calm_snoc; reflexivity
  end.
Qed.

Lemma protector_reported {A} p tr (res : outcome A) t1 e t2 b : wp rguard ppost [] p -> exec p tr res ->
  tr = (t1 ++ e :: t2)%list -> breakdown_of e = Some b ->
  (exists e' t3, t2 = e' :: t3 /\ reports (ev_op e) b e') \/
  (t2 = [] /\ b = NoAnswer /\ res = Panicked /\ exists id, e = Ev (OFindActiveInfo id) (None, None)).
Proof.
  intros HW HX HE HB. destruct t2 as [|e' t3].
  - right. pose proof (wp_exec _ _ _ _ _ HW HX) as HQ. subst tr. destruct res as [a|].
    + pose proof (HQ e (final_snoc _ _)). congruence.
    + destruct HQ as (t & id & HE). apply app_inj_tail in HE. destruct HE as [_ ->]. simpl in HB. injection HB as <-. eauto.
  - left. exact (reported_here ppost p tr res t1 e (e' :: t3) b HW HX HE HB ltac:(discriminate)).
Qed.

(** ** The line before the answer *)
Lemma alarms_app a b : alarms (a ++ b) = (alarms a ++ alarms b)%list.
Proof. apply flat_map_app. Qed.
Lemma alarms_snoc a o x : alarms (a ++ [Ev o x]) = (alarms a ++ alarm o)%list.
Proof. rewrite alarms_app. unfold alarms at 2. simpl. rewrite app_nil_r. reflexivity. Qed.
Lemma http_snoc a o x : http_ops (a ++ [Ev o x]) = (http_ops a ++ if is_http o then [o] else [])%list.
Proof. rewrite http_ops_app. unfold http_ops at 2. simpl. destruct (is_http o); reflexivity. Qed.
Lemma statuses_snoc a o x : statuses (a ++ [Ev o x]) = (statuses a ++ match o with OStatus n => [n] | _ => [] end)%list.
Proof. rewrite statuses_app. unfold statuses at 2. simpl. rewrite app_nil_r. reflexivity. Qed.

Definition clean (h : list event) : Prop := http_ops h = [] /\ alarms h = [].
Definition alarm_fits (h : list event) (st : Z) : Prop :=
  (alarms h = [] /\ st <> 500%Z) \/
  (exists k, alarms h = [k] /\ (st = 500%Z /\ server_alarm k \/ st = 400%Z /\ odd_alarm k)).
Definition refusal_line (h : list event) (st : Z) : Prop :=
  exists t l k attrs u, h = (t ++ [Ev (OLog l k attrs) u])%list /\ http_ops t = [] /\ k <> AccessTokenGranted /\
    st <> 200%Z /\ alarm_fits h st.
Definition told (tr : list event) : Prop :=
  exists st l k, answers_after tr st l k /\ (k = AccessTokenGranted <-> st = 200%Z) /\ alarm_fits tr st.

Lemma clean_nil : clean [].
Proof. split; reflexivity. Qed.

Ltac chist := rewrite ?alarms_snoc, ?http_snoc; repeat match goal with H : clean _ |- _ => destruct H end;
  repeat match goal with H : http_ops _ = [] |- _ => rewrite H | H : alarms _ = [] |- _ => rewrite H end; cbn [app alarm is_http].
Ltac kleaf :=
  lazymatch goal with
  | |- gtrue _ _ => exact I
  | |- True => exact I
  | |- clean ?h => first [is_var h; assumption | split; chist; reflexivity]
  | |- refusal_line _ _ =>
      do 5 eexists; split; [reflexivity|]; split; [chist; reflexivity|]; split; [discriminate|]; split; [simpl; discriminate|];
      unfold alarm_fits; chist;
      first [ left; split; [reflexivity|simpl; discriminate]
            | right; eexists; split; [reflexivity|];
              first [ right; split; [reflexivity|]; unfold odd_alarm; tauto
                    | left; split; [reflexivity|]; first
                        [ left; exists NotProvided; reflexivity | left; exists OwnError; reflexivity
                        | left; exists NoAnswer; reflexivity | right; reflexivity ] ] ]
  end.

Definition hpost : post (response + oauth_error) := fun h x =>
  match x with
  | Done (inl _) => clean h
  | Done (inr e) => refusal_line h (oerr_status (oe_type e))
  | Panicked => True
  end.

Lemma handler_lines J h r c now : bundled J h -> forall t, clean t -> wp gtrue hpost t (h r c now).
Proof.
  intros [] t Ht.
  - unfold_grants. wp_go; unfold refuse; wp_end; try unfold hpost; kleaf.
  - unfold_grants. wp_go; unfold refuse; wp_end; try unfold hpost; kleaf.
  - unfold_grants. wp_go; unfold refuse; wp_end; try unfold hpost; kleaf.
  - unfold_grants. wp_go; unfold refuse; wp_end; try unfold hpost; kleaf.
  - unfold jwt_grant, jwt_parse, handle_assertion_error, grant_keyf, with_id. unfold_grants.
    wp_go; unfold refuse; wp_end; try unfold hpost; try kleaf.
    exfalso. destruct (c_assertion_key _ _ _); discriminate.
Qed.

(** Sending the answer. *)
Lemma te_fail_told te e t : refusal_line t (oerr_status (oe_type e)) -> wp gtrue (fun h _ => told h) t (te_fail te e).
Proof.
  intros (t0 & l & k & attrs & u & -> & H1 & H2 & H3 & H4). unfold te_fail, set_common_headers. wp_go; try exact I.
  exists (oerr_status (oe_type e)), l, k. split; [|split; [tauto|]].
  - exists t0, attrs. eexists. split; [repeat rewrite <- app_assoc; destruct u; reflexivity|]. split; [exact H1|].
    split; [repeat constructor|reflexivity].
  - unfold alarm_fits in *. rewrite !alarms_snoc in *. cbn [alarm] in *. rewrite !app_nil_r in *. exact H4.
Qed.

Lemma te_fail_auth_told te e t : refusal_line t 401 -> wp gtrue (fun h _ => told h) t (te_fail_auth te e).
Proof.
  intros (t0 & l & k & attrs & u & -> & H1 & H2 & H3 & H4). unfold te_fail_auth, set_common_headers. wp_go; try exact I.
  exists 401%Z, l, k. split; [|split; [tauto|]].
  - exists t0, attrs. eexists. split; [repeat rewrite <- app_assoc; destruct u; reflexivity|]. split; [exact H1|].
    split; [repeat constructor|reflexivity].
  - unfold alarm_fits in *. rewrite !alarms_snoc in *. cbn [alarm] in *. rewrite !app_nil_r in *. exact H4.
Qed.

Lemma execute_told J te r c h t : bundled J h -> clean t ->
  wp gtrue (fun h x => match x with Done _ => told h | Panicked => True end) t (execute_grant te r c h).
Proof.
  intros HB Ht. unfold execute_grant. cbn [bind call]. apply wp_vis; [exact I|]. intros now.
  apply wp_bind. eapply wp_post; [|apply (handler_lines J _ _ _ _ HB); split; chist; reflexivity].
  intros h' [[rs|e]|] HP; [| |exact I]; unfold hpost in HP.
  - unfold te_success, set_common_headers, logm, call. wp_go; try exact I.
    exists 200%Z, LDebug, AccessTokenGranted. split; [|split; [tauto|]].
    + destruct HP as [HP _]. exists h'. do 2 eexists. split; [repeat rewrite <- app_assoc; destruct x; reflexivity|]. split; [exact HP|].
      split; [repeat constructor|reflexivity].
    + left. split; [|discriminate]. rewrite !alarms_snoc. cbn [alarm]. rewrite !app_nil_r. apply HP.
  - eapply wp_post; [|apply te_fail_told; exact HP]. intros ? [?|] H; [exact H|exact I].
Qed.

Definition vpost : post (option client) := fun h x =>
  match x with
  | Done (Some _) => clean h
  | Done None => told h
  | Panicked => True
  end.

Lemma answered_then t (p : prog unit) : wp gtrue (fun h _ => told h) t p ->
  wp gtrue vpost t (p ;;; Ret (@None client)).
Proof.
  intros H. apply wp_bind. eapply wp_post; [|exact H]. intros h [?|] HT; [exact HT|exact I].
Qed.

Lemma secret_told te r gt cid sec b : wp gtrue vpost [] (validate_by_secret te r gt cid sec b).
Proof.
  pose proof clean_nil. unfold validate_by_secret, dcheck, te_fail_client.
  repeat (lazymatch goal with
  | |- wp _ _ _ (bind (te_fail _ _) _) => apply answered_then; apply te_fail_told; kleaf
  | |- wp _ _ _ (bind (te_fail_auth _ _) _) => apply answered_then; apply te_fail_auth_told; kleaf
  | _ => wp_step end); try exact I; unfold vpost; kleaf.
Qed.

Lemma assertion_told J te ca : wp gtrue vpost [] (validate_by_assertion J te ca).
Proof.
  pose proof clean_nil.
  unfold validate_by_assertion, jwt_parse, handle_assertion_error, te_keyf, with_id. unfold dcheck, echeck.
  repeat (lazymatch goal with
  | |- wp _ _ _ (bind (te_fail _ _) _) => apply answered_then; apply te_fail_told; kleaf
  | |- wp _ _ _ (bind (te_fail_auth _ _) _) => apply answered_then; apply te_fail_auth_told; kleaf
  | _ => wp_step end); try exact I; unfold vpost; kleaf.
Qed.

Lemma token_told J te r : only_bundled J te ->
  wp gtrue (fun h x => match x with Done _ => told h | Panicked => True end) [] (token_handler J te r).
Proof.
  intros HB. pose proof clean_nil as H0. unfold token_handler.
  destruct (negb (r_method r =s? "POST")).
  { wp_go; try exact I. exists 405%Z, LDebug, InvalidHTTPMethod. split; [|split; [split; discriminate|]].
    - exists [], [("http_method", r_method r)], [Ev (OStatus 405) x0]. destruct x.
      split; [reflexivity|]. split; [reflexivity|]. split; [repeat constructor|reflexivity].
    - left. split; [reflexivity|discriminate]. }
  assert (F : forall t e, refusal_line t (oerr_status (oe_type e)) ->
    wp gtrue (fun h x => match x with Done _ => told h | Panicked => True end) t (te_fail te e)).
  { intros t e H. eapply wp_post; [|apply te_fail_told; exact H]. intros ? [?|] H'; [exact H'|exact I]. }
  destruct (form_value r "grant_type" =s? "").
  { repeat wp_step. apply F. kleaf. }
  destruct (find_handler _ _) as [h|] eqn:EH.
  2: { repeat wp_step. apply F. kleaf. }
  destruct (find_handler_in _ _ _ EH) as [gt' Hin]. pose proof (HB _ _ Hin) as Hb.
  destruct (find_client_credential te r) as [[[cid sec] b]|].
  - apply wp_bind. eapply wp_post; [|apply secret_told].
    intros h' [[c|]|] HP; [| |exact I]; unfold vpost in HP; [apply (execute_told J); auto|apply wp_ret; exact HP].
  - destruct (if te_accept_assertion te then _ else _) as [ca|].
    + apply wp_bind. eapply wp_post; [|apply assertion_told].
      intros h' [[c|]|] HP; [| |exact I]; unfold vpost in HP; [apply (execute_told J); auto|apply wp_ret; exact HP].
    + repeat wp_step. eapply wp_post; [|apply te_fail_auth_told; kleaf]. intros ? [?|] H'; [exact H'|exact I].
Qed.
