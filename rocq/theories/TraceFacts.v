(** * Where served requests come from. *)
From Coq Require Import Lia.
From Verif Require Import Hoare WpTac Core World Spec TokenSpec OAuthError Assertion Grants TokenEndpoint GrantFacts TokenFacts
  TokenProofs LogFacts TokenMore ResourceProtector ResourceSpec ResourceFacts AuthzResponse AuthzEndpoint AuthzSpec
  AuthzProofs AuthzMore SysSpec SysFacts SysTrace TestStore StoreFacts TraceSpec.

(** ** Who creates authorizations *)

Lemma in_calls tr ev : In ev (calls tr) -> In ev tr.
Proof. unfold calls. rewrite filter_In. tauto. Qed.

Lemma direct_agreed J te r c now ta th past rest uid (h0 : list event) :
  authenticated J te r c ta -> past = (ta ++ Ev ONow now :: th ++ rest)%list ->
  direct_checks r c -> (forall e, In e h0 -> In e th) ->
  password_ident r h0 uid \/ client_ident c h0 uid \/ jwt_ident J r c h0 uid ->
  agreed (token_handler J te r) past uid (c_id c) (form_value r "scope").
Proof.
  intros HA HP HD HI HW.
  assert (HS : signed_in J te r c past) by (exists ta, now, (th ++ rest)%list; auto).
  assert (HIn : forall e, In e h0 -> In e past).
  { intros e He. rewrite HP. apply in_or_app. right. right. apply in_or_app. auto. }
  destruct HW as [(H1 & H2 & ->)|[(_ & H1 & H2)|(t & evs & sub & H1 & H2 & H3 & ->)]].
  - eapply ag_password; eauto. apply HIn. simpl. auto.
  - eapply ag_owner; eauto.
  - eapply ag_assertion; eauto.
    + intros e He. apply HIn. apply in_or_app. auto.
    + apply HIn. apply in_or_app. simpl. auto.
Qed.

Lemma token_create_info J te r tr x uid cid scope a t1 t2 : only_bundled J te -> exec (token_handler J te r) tr x ->
  tr = (t1 ++ Ev (OCreateInfo uid cid scope) a :: t2)%list ->
  agreed (token_handler J te r) t1 uid cid scope.
Proof.
  intros HB He E.
  destruct (granted_event _ _ _ _ _ _ _ _ _ He E eq_refl) as (h & c & now & th & z & t & t' & H1 & (ta & HA & Ht) & H3 & H4).
  assert (X : forall h0, (password_ident r h0 uid \/ client_ident c h0 uid \/ jwt_ident J r c h0 uid) ->
    h0 = calls t -> cid = c_id c -> scope = form_value r "scope" -> direct_checks r c ->
    agreed (token_handler J te r) t1 uid cid scope).
  { intros h0 HW -> -> -> HD. eapply direct_agreed with (rest := []) (th := t) (h0 := calls t); eauto.
    - rewrite app_nil_r. exact Ht.
    - apply in_calls. }
  destruct (registered_bundled _ _ _ _ HB H1).
  - destruct (exec_guard _ _ _ _ _ _ _ _ _ (authorization_code_wp _ _ _ _) H3 H4).
  - destruct (exec_guard _ _ _ _ _ _ _ _ _ (refresh_token_wp _ _ _) H3 H4).
  - destruct (exec_guard _ _ _ _ _ _ _ _ _ (password_grant_wp _ _ _) H3 H4) as (K1 & K2 & K3 & K4). eapply X; eauto.
  - destruct (exec_guard _ _ _ _ _ _ _ _ _ (client_credentials_wp _ _ _) H3 H4) as (K1 & K2 & K3 & K4). eapply X; eauto.
  - destruct (proj1 (exec_guard _ _ _ _ _ _ _ _ _ (jwt_grant_wp _ _ _ _) H3 H4)) as (K1 & K2 & K3 & K4). eapply X; eauto.
Qed.

(* agreement stays *)
Lemma agreed_more p t1 t2 uid cid scope : agreed p t1 uid cid scope -> agreed p (t1 ++ t2) uid cid scope.
Proof.
  assert (HS : forall J te r c, signed_in J te r c t1 -> signed_in J te r c (t1 ++ t2)).
  { intros J te r c (ta & now & rest & H & ->). exists ta, now, (rest ++ t2)%list. split; [exact H|].
    rewrite <- app_assoc. reflexivity. }
  assert (HI : forall e, In e t1 -> In e (t1 ++ t2)%list) by (intros; apply in_or_app; auto).
  intros H. destruct H.
  - eapply ag_password; eauto.
  - eapply ag_owner; eauto.
  - eapply ag_assertion; eauto.
  - eapply ag_consent; eauto.
Qed.

Lemma goidc_create_info p past q uid cid scope a : goidc p -> steps p past q ->
  In (Ev (OCreateInfo uid cid scope) a) past -> agreed p past uid cid scope.
Proof.
  intros HG HS HI. apply in_split in HI. destruct HI as (t1 & t2 & E).
  destruct HG as [J te r HB|E0 pol r|E0 pol|E0|rp r|rp r m].
  - destruct (steps_prefix _ _ _ HS) as (t & x & He). rewrite E. apply agreed_more.
    eapply token_create_info; [exact HB|exact He|]. rewrite E, <- app_assoc. reflexivity.
  - exfalso. destruct (steps_done _ _ _ HS) as (t & x & He).
    exact (handle_performs _ _ _ _ _ _ _ He (performs_prefix _ _ _ _ _ t E)).
  - destruct (steps_done _ _ _ HS) as (t & x & He). rewrite E, <- app_assoc in He.
    destruct (wp_guard _ _ _ _ _ t1 (Ev (OCreateInfo uid cid scope) a) (t2 ++ t) (complete_request_wp E0 pol) He eq_refl)
      as (rq & HR & -> & ->).
    rewrite E, HR. eapply ag_consent; [reflexivity|simpl; auto|simpl; auto|reflexivity].
  - exfalso. destruct (steps_done _ _ _ HS) as (t & x & He). rewrite E, <- app_assoc in He.
    destruct (wp_guard _ _ _ _ _ t1 (Ev (OCreateInfo uid cid scope) a) (t2 ++ t) (cancel_request_wp E0) He eq_refl) as [X|X]; [discriminate|exact X].
  - exfalso. destruct (steps_done _ _ _ HS) as (t & x & He). apply validate_reads in He.
    specialize (He (Ev (OCreateInfo uid cid scope) a)). rewrite E in He. discriminate He. apply in_or_app. left. apply in_or_app. simpl. auto.
  - exfalso. destruct (steps_done _ _ _ HS) as (t & x & He). apply scopes_reads in He.
    specialize (He (Ev (OCreateInfo uid cid scope) a)). rewrite E in He. discriminate He. apply in_or_app. left. apply in_or_app. simpl. auto.
Qed.

(** ** Who creates tokens *)

(* the run knows [info] to be an authorization of this user and client *)
Definition knows (past : list event) (info : authinfo) (uid : Z) (cid : string) : Prop :=
  (exists scope, In (Ev (OCreateInfo uid cid scope) (Some info, None)) past) \/
  (In (Ev (OFindInfo uid cid) (Some info, None)) past /\ ai_active info = true).

Definition exchanged (past : list event) (info : authinfo) : Prop :=
  exists code x, In (Ev (OFindSession code) (Some x, None)) past /\
    In (Ev (OFindActiveInfo (as_auth_id x)) (Some info, None)) past.

Lemma approved_more r c t1 t2 : approved r c t1 -> approved r c (t1 ++ t2).
Proof.
  intros (A1 & A2 & A3 & e & rs & -> & A4). split; [exact A1|]. split; [exact A2|]. split; [exact A3|].
  exists e, (rs ++ t2)%list. auto.
Qed.
Lemma consent_more pol q i t1 t2 : consent_on_record pol q i t1 -> consent_on_record pol q i (t1 ++ t2).
Proof.
  intros (uid & now & (a & b & ->) & H). exists uid, now. split; [|exact H]. exists a, (b ++ t2)%list.
  rewrite <- !app_assoc. reflexivity.
Qed.

Lemma record_granted E pol r c q info t1 t2 :
  approved r c t1 -> validated pol r c q -> consent_on_record pol q info t1 ->
  exists uid cid, granted (done (handle_request E pol r)) (t1 ++ t2) uid cid /\ knows (t1 ++ t2) info uid cid.
Proof.
  intros H1 H2 H3. pose proof H3 as (uid & now & (a & b & Ht) & Hact & _). exists uid, (rq_client q). split.
  - right. exists E, pol, r, c, q, info. split; [reflexivity|]. split; [apply approved_more; exact H1|].
    split; [exact H2|]. split; [apply consent_more; exact H3|]. split; [|reflexivity].
    rewrite Ht. repeat (apply in_or_app; try (left; apply in_or_app; right)). simpl. auto.
  - right. split; [|exact Hact]. rewrite Ht. apply in_or_app. left. apply in_or_app. right. simpl. auto.
Qed.
Lemma recorded_granted E pol q info t1 t2 : recorded q (Some info) t1 ->
  exists uid cid, granted (done (complete_request E pol)) (t1 ++ t2) uid cid /\ knows (t1 ++ t2) info uid cid.
Proof.
  intros (uid & rest & ->). exists uid, (rq_client q). split.
  - left. exists (rq_scope q). eapply ag_consent; [reflexivity|simpl; auto|simpl; auto|reflexivity].
  - left. exists (rq_scope q). simpl. auto.
Qed.

Lemma goidc_create_token p past q info b a : goidc p -> steps p past q ->
  In (Ev (OCreateToken (Some info) b) a) past ->
  exchanged past info \/ exists uid cid, granted p past uid cid /\ knows past info uid cid.
Proof.
  intros HG HS HI. apply in_split in HI. destruct HI as (t1 & t2 & E).
  destruct HG as [J te r HB|E0 pol r|E0 pol|E0|rp r|rp r m].
  - destruct (steps_prefix _ _ _ HS) as (t & x & He).
    assert (E' : (past ++ t = t1 ++ Ev (OCreateToken (Some info) b) a :: (t2 ++ t))%list) by (rewrite E, <- app_assoc; reflexivity).
    destruct (granted_event _ _ _ _ _ _ _ _ _ He E' eq_refl) as (h & c & now & th & z & t0 & t' & H1 & (ta & HA & Ht) & H3 & H4).
    assert (HIn : forall e, In e t0 -> In e past).
    { intros e Hx. rewrite E, Ht. apply in_or_app. left. apply in_or_app. right. right. exact Hx. }
    assert (X : forall h0 uid i, (password_ident r h0 uid \/ client_ident c h0 uid \/ jwt_ident J r c h0 uid) ->
      Some info = Some i -> direct_checks r c ->
      calls t0 = (h0 ++ [Ev (OCreateInfo uid (c_id c) (form_value r "scope")) (Some i, None)])%list ->
      exists uid cid, granted (token_handler J te r) past uid cid /\ knows past info uid cid).
    { intros h0 uid i HW Hi HD HC. injection Hi as <-. exists uid, (c_id c). split.
      - left. exists (form_value r "scope"). eapply direct_agreed with (th := t0) (h0 := h0); [exact HA| |exact HD| |exact HW].
        + rewrite E, Ht. rewrite <- app_assoc. reflexivity.
        + intros e Hx. apply in_calls. rewrite HC. apply in_or_app. auto.
      - left. exists (form_value r "scope"). apply HIn, in_calls. rewrite HC. apply in_or_app. simpl. auto. }
    destruct (registered_bundled _ _ _ _ HB H1).
    + left. destruct (exec_guard _ _ _ _ _ _ _ _ _ (authorization_code_wp _ _ _ _) H3 H4) as (sess & i & Hi & _ & _ & HD).
      injection Hi as <-. exists (form_value r "code"), sess. split; apply HIn, data_in; rewrite HD; simpl; auto.
    + destruct (exec_guard _ _ _ _ _ _ _ _ _ (refresh_token_wp _ _ _) H3 H4).
    + right. destruct (exec_guard _ _ _ _ _ _ _ _ _ (password_grant_wp _ _ _) H3 H4) as (h0 & uid & i & K1 & K2 & K3 & K4 & K5).
      eapply X; eauto.
    + right. destruct (exec_guard _ _ _ _ _ _ _ _ _ (client_credentials_wp _ _ _) H3 H4) as (h0 & uid & i & K1 & K2 & K3 & K4 & K5).
      eapply X; eauto.
    + right. destruct (proj1 (exec_guard _ _ _ _ _ _ _ _ _ (jwt_grant_wp _ _ _ _) H3 H4)) as (h0 & uid & i & K1 & K2 & K3 & K4 & K5).
      eapply X; eauto.
  - right. destruct (steps_done _ _ _ HS) as (t & x & He).
    destruct (handle_issue _ _ _ _ _ _ _ He (performs_prefix _ _ _ _ _ t E) eq_refl)
      as (c & rq & i & HA & HV & HM & _ & Hi & HSf). injection Hi as <-. destruct HM as [HM _].
    rewrite E. eapply record_granted; eauto.
  - right. destruct (steps_done _ _ _ HS) as (t & x & He). rewrite E, <- app_assoc in He.
    destruct (wp_guard _ _ _ _ _ t1 (Ev (OCreateToken (Some info) b) a) (t2 ++ t) (complete_request_wp E0 pol) He eq_refl) as (rq & HR & HSf).
    rewrite E. eapply recorded_granted; eauto.
  - exfalso. destruct (steps_done _ _ _ HS) as (t & x & He). rewrite E, <- app_assoc in He.
    destruct (wp_guard _ _ _ _ _ t1 (Ev (OCreateToken (Some info) b) a) (t2 ++ t) (cancel_request_wp E0) He eq_refl) as [X|X]; [discriminate|exact X].
  - exfalso. destruct (steps_done _ _ _ HS) as (t & x & He). apply validate_reads in He.
    specialize (He (Ev (OCreateToken (Some info) b) a)). rewrite E in He. discriminate He. apply in_or_app. left. apply in_or_app. simpl. auto.
  - exfalso. destruct (steps_done _ _ _ HS) as (t & x & He). apply scopes_reads in He.
    specialize (He (Ev (OCreateToken (Some info) b) a)). rewrite E in He. discriminate He. apply in_or_app. left. apply in_or_app. simpl. auto.
Qed.

Lemma goidc_stored_session p past q info y a : goidc p -> steps p past q ->
  In (Ev (OCreateSession (Some info) y) a) past ->
  exists uid cid, granted p past uid cid /\ knows past info uid cid.
Proof.
  intros HG HS HI. destruct (goidc_session _ _ _ _ _ _ HG HS HI) as (pol & rq & t1 & _ & HW & t2 & ->).
  destruct HW as [(E & -> & HR)|(E & r & c & i & Hi & -> & HA & HV & HC)].
  - eapply recorded_granted; eauto.
  - injection Hi as <-. eapply record_granted; eauto.
Qed.

(** A refresh is for the authorization of the token that was found. *)
Lemma goidc_refresh p past q info old a : goidc p -> steps p past q ->
  In (Ev (ORefresh info old) a) past ->
  (exists t, In (Ev (OFindByRefresh t) (Some old, None)) past) /\
  In (Ev (OFindActiveInfo (ot_auth_id old)) (Some info, None)) past.
Proof.
  intros HG HS HI. apply in_split in HI. destruct HI as (t1 & t2 & E).
  destruct HG as [J te r HB|E0 pol r|E0 pol|E0|rp r|rp r m].
  - destruct (steps_prefix _ _ _ HS) as (t & x & He).
    assert (E' : (past ++ t = t1 ++ Ev (ORefresh info old) a :: (t2 ++ t))%list) by (rewrite E, <- app_assoc; reflexivity).
    destruct (granted_event _ _ _ _ _ _ _ _ _ He E' eq_refl) as (h & c & now & th & z & t0 & t' & H1 & (ta & HA & Ht) & H3 & H4).
    assert (HIn : forall e, In e t0 -> In e past).
    { intros e Hx. rewrite E, Ht. apply in_or_app. left. apply in_or_app. right. right. exact Hx. }
    destruct (registered_bundled _ _ _ _ HB H1).
    + destruct (exec_guard _ _ _ _ _ _ _ _ _ (authorization_code_wp _ _ _ _) H3 H4).
    + destruct (exec_guard _ _ _ _ _ _ _ _ _ (refresh_token_wp _ _ _) H3 H4) as (_ & HD).
      split; [exists (form_value r "refresh_token")|]; apply HIn, data_in; rewrite HD; simpl; auto.
    + destruct (exec_guard _ _ _ _ _ _ _ _ _ (password_grant_wp _ _ _) H3 H4).
    + destruct (exec_guard _ _ _ _ _ _ _ _ _ (client_credentials_wp _ _ _) H3 H4).
    + destruct (proj1 (exec_guard _ _ _ _ _ _ _ _ _ (jwt_grant_wp _ _ _ _) H3 H4)).
  - exfalso. destruct (steps_done _ _ _ HS) as (t & x & He).
    exact (handle_performs _ _ _ _ _ _ _ He (performs_prefix _ _ _ _ _ t E)).
  - exfalso. destruct (steps_done _ _ _ HS) as (t & x & He). rewrite E, <- app_assoc in He.
    exact (wp_guard _ _ _ _ _ t1 (Ev (ORefresh info old) a) (t2 ++ t) (complete_request_wp E0 pol) He eq_refl).
  - exfalso. destruct (steps_done _ _ _ HS) as (t & x & He). rewrite E, <- app_assoc in He.
    destruct (wp_guard _ _ _ _ _ t1 (Ev (ORefresh info old) a) (t2 ++ t) (cancel_request_wp E0) He eq_refl) as [X|X]; [discriminate|exact X].
  - exfalso. destruct (steps_done _ _ _ HS) as (t & x & He). apply validate_reads in He.
    specialize (He (Ev (ORefresh info old) a)). rewrite E in He. discriminate He. apply in_or_app. left. apply in_or_app. simpl. auto.
  - exfalso. destruct (steps_done _ _ _ HS) as (t & x & He). apply scopes_reads in He.
    specialize (He (Ev (ORefresh info old) a)). rewrite E in He. discriminate He. apply in_or_app. left. apply in_or_app. simpl. auto.
Qed.

(** ** Interleavings *)

Section Origin.
  Context {S : Type} (W : rworld S) (ok : S -> Prop) (sess : S -> string -> option authsession)
          (auth : S -> Z -> option authinfo) (tok : S -> string -> option oauthtoken).
  Hypothesis L : linked_store W ok sess auth.
  Hypothesis T : token_store W ok tok.

  (* what is known about authorizations *)
  Definition told (s : S) (evs : list event) : Prop :=
    (forall e i, In e evs -> tells e i -> exists i', auth s (ai_id i) = Some i' /\ same_grant i i') /\
    (forall uid cid scope i, In (Ev (OCreateInfo uid cid scope) (Some i, None)) evs -> ai_user i = uid /\ ai_client i = cid) /\
    (forall uid cid i, In (Ev (OFindInfo uid cid) (Some i, None)) evs -> ai_user i = uid /\ ai_client i = cid) /\
    (forall id i, In (Ev (OFindActiveInfo id) (Some i, None)) evs -> ai_id i = id).

  Definition sess_origin (id : Z) (evs : list event) : Prop :=
    exists i y, In (Ev (OCreateSession (Some i) y) None) evs /\ ai_id i = id.
  Definition tok_origin (id : Z) (evs : list event) : Prop :=
    exists i b k, In (Ev (OCreateToken (Some i) b) (Some k, None)) evs /\ ai_id i = id.

  Definition origins (s : S) (id : Z) (evs : list event) : Prop :=
    (forall code x, sess s code = Some x -> as_auth_id x = id -> sess_origin id evs) /\
    (forall code x, In (Ev (OFindSession code) (Some x, None)) evs -> as_auth_id x = id -> sess_origin id evs) /\
    (forall t k, tok s t = Some k -> ot_auth_id k = id -> tok_origin id evs) /\
    (forall t k, In (Ev (OFindByAccess t) (Some k, None)) evs -> ot_auth_id k = id -> tok_origin id evs) /\
    (forall t k, In (Ev (OFindByRefresh t) (Some k, None)) evs -> ot_auth_id k = id -> tok_origin id evs).

  Lemma told_step s o a s' evs evs' : ok s -> W s o a s' ->
    (forall e, In e evs' <-> In e evs \/ e = Ev o a) -> told s evs -> told s' evs'.
  Proof.
    intros HO HW HE (F3 & F4 & F5 & F6).
    assert (SG : forall i i' i'', same_grant i i' -> same_grant i' i'' -> same_grant i i'').
    { unfold same_grant. intuition congruence. }
    split; [|split; [|split]].
    - intros e i HX HT. apply HE in HX. destruct HX as [HX|HX].
      + destruct (F3 e i HX HT) as (i1 & A1 & A2). destruct (ll_auth _ _ _ _ L _ _ _ _ _ _ HO HW A1) as (i2 & B1 & B2).
        exists i2. split; [exact B1|]. eapply SG; eauto.
      + pose proof (wev_eq W _ _ _ _ _ HW (eq_sym HX)) as HV. destruct HT as [id i|uid cid i|uid cid scope i]; simpl in HV.
        * destruct (ll_active _ _ _ _ L _ _ _ _ HO HV) as [A1 A2]. rewrite <- A2 in A1.
          exact (ll_auth _ _ _ _ L _ _ _ _ _ _ HO HV A1).
        * destruct (ll_info _ _ _ _ L _ _ _ _ _ HO HV) as [A1 _].
          exact (ll_auth _ _ _ _ L _ _ _ _ _ _ HO HV A1).
        * destruct (ll_create _ _ _ _ L _ _ _ _ _ _ HO HV) as [A1 _]. exists i. split; [exact A1|split; reflexivity].
    - intros uid cid scope i HX. apply HE in HX. destruct HX as [HX|HX]; [eauto|].
      pose proof (wev_eq W _ _ _ _ _ HW (eq_sym HX)) as HV. exact (proj2 (ll_create _ _ _ _ L _ _ _ _ _ _ HO HV)).
    - intros uid cid i HX. apply HE in HX. destruct HX as [HX|HX]; [eauto|].
      pose proof (wev_eq W _ _ _ _ _ HW (eq_sym HX)) as HV. exact (proj2 (ll_info _ _ _ _ L _ _ _ _ _ HO HV)).
    - intros id i HX. apply HE in HX. destruct HX as [HX|HX]; [eauto|].
      pose proof (wev_eq W _ _ _ _ _ HW (eq_sym HX)) as HV. exact (proj2 (ll_active _ _ _ _ L _ _ _ _ HO HV)).
  Qed.

  Lemma origins_step s o a s' id evs evs' : ok s -> W s o a s' ->
    (forall e, In e evs' <-> In e evs \/ e = Ev o a) ->
    (* a refresh is for the authorization of a token found before *)
    (forall i old, o = ORefresh i old -> exists t, In (Ev (OFindByRefresh t) (Some old, None)) evs /\ ai_id i = ot_auth_id old) ->
    origins s id evs -> origins s' id evs'.
  Proof.
    intros HO HW HE HR (O1 & O2 & O3 & O4 & O5).
    assert (US : sess_origin id evs -> sess_origin id evs').
    { intros (i & y & H1 & H2). exists i, y. split; [apply HE; auto|exact H2]. }
    assert (UT : tok_origin id evs -> tok_origin id evs').
    { intros (i & b & k & H1 & H2). exists i, b, k. split; [apply HE; auto|exact H2]. }
    split; [|split; [|split; [|split]]].
    - intros code x HX HI. destruct (ll_stored _ _ _ _ L _ _ _ _ _ _ HO HW HX) as [H|(i & y & E & _ & H & _)]; [eauto|].
      exists i, y. split; [apply HE; rewrite E; auto|congruence].
    - intros code x HX HI. apply HE in HX. destruct HX as [HX|HX]; [eauto|]. apply US.
      eapply O1; [|exact HI]. exact (ll_find _ _ _ _ L _ _ _ _ HO (wev_eq W _ _ _ _ _ HW (eq_sym HX))).
    - intros t k HX HI. destruct (tk_stored _ _ _ T _ _ _ _ _ _ HO HW HX) as [H|[(i & b & E & H)|(i & old & -> & H)]]; [eauto| |].
      + exists i, b, k. split; [apply HE; rewrite E; auto|congruence].
      + apply UT. destruct H as [H|(t' & x & H1 & H2)].
        * destruct (HR i old eq_refl) as (t' & H1 & H2). eapply O5; [exact H1|congruence].
        * eapply O3; [exact H1|congruence].
    - intros t k HX HI. apply HE in HX. destruct HX as [HX|HX]; [eauto|]. apply UT.
      eapply O3; [|exact HI]. exact (tk_find _ _ _ T _ _ _ _ HO (wev_eq W _ _ _ _ _ HW (eq_sym HX))).
    - intros t k HX HI. apply HE in HX. destruct HX as [HX|HX]; [eauto|]. apply UT.
      destruct (tk_refresh _ _ _ T _ _ _ _ HO (wev_eq W _ _ _ _ _ HW (eq_sym HX))) as (t' & HT'). eauto.
  Qed.

  Lemma steps_snoc (p : prog unit) tr o k x : steps p tr (Vis o k) -> steps p (tr ++ [Ev o x]) (k x).
  Proof.
    intros H. remember (Vis o k) as q eqn:E. induction H as [q|o0 k0 x0 tr p' H IH].
    - subst. simpl. repeat constructor.
    - simpl. constructor. auto.
  Qed.

  Lemma all_start (progs : list (prog unit)) : all_events (map start progs) = [].
  Proof. induction progs as [|p l IH]; [reflexivity|exact IH]. Qed.

  Lemma told_psteps c0 c : psteps W c0 c -> forall s0 progs, c0 = (s0, map start progs) -> ok s0 ->
    ok (fst c) /\ Forall2 (fun (p : prog unit) th => steps p (th_past th) (th_rest th)) progs (snd c) /\
    told (fst c) (all_events (snd c)).
  Proof.
    induction 1 as [c|c1 c2 c3 H1 IH H2]; intros s0 progs E HO.
    - subst. cbn [fst snd]. split; [exact HO|]. split.
      + clear. induction progs as [|p l IH]; constructor; [constructor|exact IH].
      + rewrite all_start. repeat split; intros; contradiction.
    - destruct (IH s0 progs E HO) as (I1 & I2 & I3). clear IH.
      destruct H2 as [s s' before past o k x after HW]. cbn [fst snd] in *. split; [eapply ll_ok; eauto|]. split.
      + apply Forall2_app_inv_r in I2. destruct I2 as (l1 & l2 & F1 & F2 & ->).
        inversion F2 as [|p th l2' after' HS HF]; subst. apply Forall2_app; [exact F1|]. constructor; [|exact HF].
        simpl in *. apply steps_snoc. exact HS.
      + eapply told_step; [exact I1|exact HW| |exact I3]. intros e. unfold all_events.
        rewrite !flat_map_app. cbn [flat_map th_past]. rewrite !in_app_iff. simpl. intuition.
  Qed.

  Lemma origins_psteps c0 c id : psteps W c0 c -> forall s0 progs, c0 = (s0, map start progs) -> ok s0 ->
    Forall goidc progs ->
    (forall code x, sess s0 code = Some x -> as_auth_id x <> id) ->
    (forall t k, tok s0 t = Some k -> ot_auth_id k <> id) ->
    origins (fst c) id (all_events (snd c)).
  Proof.
    induction 1 as [c|c1 c2 c3 H1 IH H2]; intros s0 progs E HO HG HN1 HN2.
    - subst. cbn [fst snd]. rewrite all_start. split; [|split; [|split; [|split]]]; intros; try contradiction; exfalso.
      + eapply HN1; eauto.
      + eapply HN2; eauto.
    - pose proof (IH s0 progs E HO HG HN1 HN2) as I. clear IH.
      destruct (told_psteps _ _ H1 _ _ E HO) as (I1 & I2 & I3).
      destruct H2 as [s s' before past o k x after HW]. cbn [fst snd] in *.
      eapply origins_step; [exact I1|exact HW| | |exact I].
      + intros e. unfold all_events. rewrite !flat_map_app. cbn [flat_map th_past]. rewrite !in_app_iff. simpl. intuition.
      + intros i old ->. apply Forall2_app_inv_r in I2. destruct I2 as (l1 & l2 & F1 & F2 & Hl).
        inversion F2 as [|p th l2' after' HS HF]; subst. apply Forall_app in HG. destruct HG as [_ HG].
        inversion HG as [|? ? HGp _]; subst. simpl in HS.
        assert (HA : forall e, In e past -> In e (all_events (before ++ Thread past (Vis (ORefresh i old) k) :: after))).
        { intros e He. unfold all_events. rewrite flat_map_app. apply in_or_app. right. simpl. apply in_or_app. auto. }
        pose proof (steps_snoc _ _ _ _ x HS) as HS'.
        destruct (goidc_refresh _ _ _ i old x HGp HS') as ((t & Ht) & Hi).
        { apply in_or_app. simpl. auto. }
        apply in_app_or in Ht. destruct Ht as [Ht|[Ht|[]]]; [|discriminate].
        apply in_app_or in Hi. destruct Hi as [Hi|[Hi|[]]]; [|discriminate].
        exists t. split; [apply HA; exact Ht|]. destruct I3 as (_ & _ & _ & F6). eapply F6. apply HA. exact Hi.
  Qed.

  Lemma knows_same s evs info j e uid cid : told s evs -> (forall e, In e info -> In e evs) ->
    knows info j uid cid -> In e evs -> forall i, tells e i -> ai_id i = ai_id j -> ai_user i = uid /\ ai_client i = cid.
  Proof.
    intros (F3 & F4 & F5 & F6) HI HK He i HT Hid.
    assert (HJ : exists e', In e' evs /\ tells e' j /\ ai_user j = uid /\ ai_client j = cid).
    { destruct HK as [(scope & HK)|[HK _]].
      - exists (Ev (OCreateInfo uid cid scope) (Some j, None)). split; [auto|]. split; [constructor|]. eauto.
      - exists (Ev (OFindInfo uid cid) (Some j, None)). split; [auto|]. split; [constructor|]. eauto. }
    destruct HJ as (e' & H1 & H2 & H3 & H4). destruct (F3 _ _ H1 H2) as (j' & A1 & A2 & A3).
    destruct (F3 _ _ He HT) as (i' & B1 & B2 & B3). rewrite Hid, A1 in B1. injection B1 as <-. split; congruence.
  Qed.

  (* The origin of an authorization that a token was found for. *)
  Lemma found_granted s0 progs s ths t k info :
    psteps W (s0, map start progs) (s, ths) -> ok s0 -> Forall goidc progs ->
    (forall code x, sess s0 code = Some x -> as_auth_id x <> ot_auth_id k) ->
    (forall t k', tok s0 t = Some k' -> ot_auth_id k' <> ot_auth_id k) ->
    In (Ev (OFindByAccess t) (Some k, None)) (all_events ths) ->
    In (Ev (OFindActiveInfo (ot_auth_id k)) (Some info, None)) (all_events ths) ->
    exists m p th, nth_error progs m = Some p /\ nth_error ths m = Some th /\
      granted p (th_past th) (ai_user info) (ai_client info).
  Proof.
    intros HP HO HG HN1 HN2 HT HI.
    destruct (told_psteps _ _ HP _ _ eq_refl HO) as (_ & HS & HTold).
    destruct (origins_psteps _ _ (ot_auth_id k) HP _ _ eq_refl HO HG HN1 HN2) as (_ & O2 & _ & O4 & _).
    cbn [fst snd] in *.
    pose proof HTold as (_ & _ & _ & F6). pose proof (F6 _ _ HI) as Hid.
    destruct (O4 _ _ HT eq_refl) as (i & b & k' & Hc & Hii).
    assert (HTh : forall e, In e (all_events ths) -> exists m p th, nth_error progs m = Some p /\ nth_error ths m = Some th /\
              In e (th_past th) /\ goidc p /\ steps p (th_past th) (th_rest th) /\
              forall e', In e' (th_past th) -> In e' (all_events ths)).
    { intros e He. unfold all_events in He. apply in_flat_map in He. destruct He as (th & Hth & He).
      pose proof Hth as Hin. apply In_nth_error in Hth. destruct Hth as [m Hm].
      destruct (forall2_nth _ _ _ _ _ HS Hm) as (p & Ep & HStp).
      exists m, p, th. repeat (split; [solve [auto]|]). split.
      { eapply Forall_forall; [exact HG|eapply nth_error_In; eauto]. }
      split; [exact HStp|]. intros e' He'. unfold all_events. apply in_flat_map. eauto. }
    assert (END : forall m p th j uid cid, nth_error progs m = Some p -> nth_error ths m = Some th ->
              (forall e', In e' (th_past th) -> In e' (all_events ths)) ->
              granted p (th_past th) uid cid -> knows (th_past th) j uid cid -> ai_id j = ot_auth_id k ->
              exists m p th, nth_error progs m = Some p /\ nth_error ths m = Some th /\
              granted p (th_past th) (ai_user info) (ai_client info)).
    { intros m p th j uid cid H1 H2 H3 H4 H5 H6.
      destruct (knows_same _ _ _ _ _ _ _ HTold H3 H5 HI info (t_active _ _)) as [-> ->]; [congruence|]. eauto 6. }
    destruct (HTh _ Hc) as (m & p & th & M1 & M2 & M3 & M4 & M5 & M6).
    destruct (goidc_create_token _ _ _ _ _ _ M4 M5 M3) as [(code & x & X1 & X2)|(uid & cid & X1 & X2)]; [|eauto].
    pose proof (F6 _ _ (M6 _ X2)) as Hx.
    destruct (O2 _ _ (M6 _ X1)) as (j & y & Hs & Hj); [congruence|].
    destruct (HTh _ Hs) as (m' & p' & th' & N1 & N2 & N3 & N4 & N5 & N6).
    destruct (goidc_stored_session _ _ _ _ _ _ N4 N5 N3) as (uid & cid & Y1 & Y2).
    eapply (END m' p' th' j); eauto.
  Qed.

  (** ** Scopes *)
  Hypothesis C : scope_store W ok auth.

  Definition scopes_told (s : S) (id : Z) (evs : list event) : Prop :=
    (forall i, auth s id = Some i -> exists uid cid j, In (Ev (OCreateInfo uid cid (ai_scope i)) (Some j, None)) evs /\ ai_id j = id) /\
    (forall i, In (Ev (OFindActiveInfo id) (Some i, None)) evs ->
       exists uid cid j, In (Ev (OCreateInfo uid cid (ai_scope i)) (Some j, None)) evs /\ ai_id j = id).

  Lemma scopes_psteps c0 c id : psteps W c0 c -> forall s0 (progs : list (prog unit)), c0 = (s0, map start progs) -> ok s0 ->
    auth s0 id = None -> scopes_told (fst c) id (all_events (snd c)).
  Proof.
    induction 1 as [c|c1 c2 c3 H1 IH H2]; intros s0 progs E HO HN.
    - subst. cbn [fst snd]. rewrite all_start. split; intros; [congruence|contradiction].
    - pose proof (IH s0 progs E HO HN) as (I2 & I3). destruct (told_psteps _ _ H1 _ _ E HO) as (I1 & _ & _). clear IH.
      destruct H2 as [s s' before past o k x after HW]. cbn [fst snd] in *.
      set (evs := all_events (before ++ Thread past (Vis o k) :: after)) in *.
      set (evs' := all_events (before ++ Thread (past ++ [Ev o x]) (k x) :: after)).
      assert (HE : forall e, In e evs' <-> In e evs \/ e = Ev o x).
      { intros e. unfold evs, evs', all_events. rewrite !flat_map_app. cbn [flat_map th_past]. rewrite !in_app_iff. simpl. intuition. }
      assert (UP : forall sc, (exists uid cid j, In (Ev (OCreateInfo uid cid sc) (Some j, None)) evs /\ ai_id j = id) ->
        exists uid cid j, In (Ev (OCreateInfo uid cid sc) (Some j, None)) evs' /\ ai_id j = id).
      { intros sc (uid & cid & j & A & B). exists uid, cid, j. split; [apply HE; auto|exact B]. }
      split.
      + intros i Hi. destruct (C _ _ _ _ _ _ I1 HW Hi) as [(i0 & A & B)|(uid & cid & j & A & B)].
        * apply UP. rewrite <- B. auto.
        * exists uid, cid, j. split; [apply HE; rewrite A; auto|exact B].
      + intros i Hi. apply HE in Hi. apply UP. destruct Hi as [Hi|Hi]; [auto|]. apply I2.
        exact (proj1 (ll_active _ _ _ _ L _ _ _ _ I1 (wev_eq W _ _ _ _ _ HW (eq_sym Hi)))).
  Qed.

  Lemma found_agreed s0 progs s ths id info :
    psteps W (s0, map start progs) (s, ths) -> ok s0 -> Forall goidc progs -> auth s0 id = None ->
    In (Ev (OFindActiveInfo id) (Some info, None)) (all_events ths) ->
    exists m p th, nth_error progs m = Some p /\ nth_error ths m = Some th /\
      agreed p (th_past th) (ai_user info) (ai_client info) (ai_scope info).
  Proof.
    intros HP HO HG HN HI.
    destruct (told_psteps _ _ HP _ _ eq_refl HO) as (_ & HS & HTold).
    destruct (scopes_psteps _ _ id HP _ _ eq_refl HO HN) as (_ & H). cbn [fst snd] in *.
    destruct (H _ HI) as (uid & cid & j & Hc & Hj). clear H.
    pose proof HTold as (_ & _ & _ & F6). pose proof (F6 _ _ HI) as Hid.
    pose proof Hc as Hc'. unfold all_events in Hc'. apply in_flat_map in Hc'. destruct Hc' as (th & Hth & He).
    pose proof Hth as Hin. apply In_nth_error in Hth. destruct Hth as [m Hm].
    destruct (forall2_nth _ _ _ _ _ HS Hm) as (p & Ep & HStp).
    exists m, p, th. split; [exact Ep|]. split; [exact Hm|].
    assert (HU : forall e', In e' (th_past th) -> In e' (all_events ths)).
    { intros e' He'. unfold all_events. apply in_flat_map. eauto. }
    assert (HK : knows (th_past th) j uid cid) by (left; eauto).
    destruct (knows_same _ _ _ _ _ uid cid HTold HU HK HI info (t_active _ _)) as [-> ->]; [congruence|].
    eapply goidc_create_info; [|exact HStp|exact He]. eapply Forall_forall; [exact HG|eapply nth_error_In; eauto].
  Qed.
End Origin.

(** ** Served requests *)

Lemma through_live p past r r' : let_through p past r r' ->
  exists t tok now info, access_live tok now /\ past = live_calls t tok now info /\ identified r r' info /\
    (exists rp, token_from rp r t).
Proof.
  assert (HV : forall rp, exec (validate rp r) past (Done (true, r')) ->
    exists t tok now info, access_live tok now /\ past = live_calls t tok now info /\ identified r r' info /\
    (exists rp, token_from rp r t)).
  { intros rp H. destruct (accepted_identified _ _ _ _ H) as (t & tok & now & info & H1 & H2 & H3 & H4 & _).
    exists t, tok, now, info. eauto 6. }
  intros H. destruct H as [rp _ H|rp m _ H]; [eauto|].
  unfold validate_with_scopes in H. apply exec_bind in H.
  destruct H as [(t1 & t2 & [b r1] & H1 & H2 & Ht)|[_ H]]; [|discriminate].
  assert (HB : exec (Ret (true, r1)) t2 (Done (true, r')) /\ b = true).
  { destruct b; cbn [negb] in H2.
    - split; [|reflexivity]. destruct (sm_get (r_path r1) m) as [scopes|]; [|exact H2].
      destruct (scope_include_all (header_get r1 "X-OAUTH-SCOPE") scopes) as [[|] miss]; [exact H2|].
      exfalso. apply exec_bind in H2. destruct H2 as [(u1 & u2 & y & _ & H2 & _)|[_ H2]]; [|discriminate].
      apply exec_inv in H2. destruct H2 as [_ H2]. discriminate.
    - exfalso. apply exec_inv in H2. destruct H2 as [_ H2]. discriminate. }
  destruct HB as [HB ->]. apply exec_inv in HB. destruct HB as [-> HB]. injection HB as ->.
  rewrite app_nil_r in Ht. rewrite Ht in *. eauto.
Qed.

(** ** The bundled store *)

Lemma token_step b s o a s' t k : tidy s -> sstep b s o a s' -> sget t (st_tokens s') = Some k ->
  sget t (st_tokens s) = Some k \/
  (exists i b, Ev o a = Ev (OCreateToken (Some i) b) (Some k, None) /\ ot_auth_id k = ai_id i) \/
  (exists i old, o = ORefresh i old /\
     (ot_auth_id k = ai_id i \/ exists t' x, sget t' (st_tokens s) = Some x /\ ot_auth_id k = ot_auth_id x)).
Proof.
  intros _ H. destruct H; try (left; assumption).
  - cbn [set_tokens st_tokens]. unfold sget at 1. rewrite sget_aput. destruct (seqb t (ot_access (created_token i t1 t2))).
    + intros HK. injection HK as <-. right. left. exists i, b0. split; reflexivity.
    + auto.
  - cbn [set_tokens st_tokens]. unfold sget at 1. rewrite sget_aput. destruct (seqb t (ot_access new)).
    + intros HK. injection HK as <-. right. right. exists i, old. split; [reflexivity|]. right.
      exists (ot_access old), x. split; [exact H|reflexivity].
    + rewrite sget_adel. destruct (seqb t (ot_access old)); [discriminate|auto].
Qed.

(** No access token is stored twice. *)
Definition tidier (s : store) : Prop := tidy s /\ NoDup (map fst (st_tokens s)).

Lemma nodup_sdel {V} id (m : list (string * V)) : NoDup (map fst m) -> NoDup (map fst (adel seqb id m)).
Proof.
  unfold adel. induction m as [|[k v] m IH]; simpl; intros HN; [constructor|]. inversion HN as [|? ? HK HM]; subst.
  destruct (negb (seqb id k)); simpl; [|auto]. constructor; [|auto].
  intros HI. apply HK. apply in_map_iff in HI. destruct HI as (p & H1 & H2). apply filter_In in H2. apply in_map_iff. exists p. tauto.
Qed.
Lemma nodup_sput {V} id (v : V) (m : list (string * V)) : NoDup (map fst m) -> NoDup (map fst (aput seqb id v m)).
Proof.
  intros HN. unfold aput. simpl. constructor; [|apply nodup_sdel; exact HN].
  intros HI. apply in_map_iff in HI. destruct HI as (p & H1 & H2). apply (in_adel seqb seqb_eq) in H2. tauto.
Qed.

Lemma tidier_step b s o a s' : tidier s -> sstep b s o a s' -> tidier s'.
Proof.
  intros [H1 H2] H. split; [eapply tidy_step; eauto|]. destruct H; try exact H2; cbn [set_tokens st_tokens].
  - apply nodup_sput. exact H2.
  - apply nodup_sput, nodup_sdel. exact H2.
Qed.

Lemma nodup_sget {V} t (v : V) m : NoDup (map fst m) -> In (t, v) m -> sget t m = Some v.
Proof.
  unfold sget. induction m as [|[k w] m IH]; simpl; intros HN HI; [contradiction|]. inversion HN as [|? ? HK HM]; subst.
  destruct (seqb t k) eqn:E.
  - apply seqb_eq in E. subst. destruct HI as [HI|HI]; [congruence|]. exfalso. apply HK. apply in_map_iff. exists (k, v). auto.
  - destruct HI as [HI|HI]; [|auto]. injection HI as -> ->. rewrite (proj2 (seqb_eq _ _) eq_refl) in E. discriminate.
Qed.

Lemma bundled_linked2 b :
  linked_store (sstep b) tidier (fun s code => sget code (st_sessions s)) (fun s id => zget id (st_infos s)).
Proof.
  destruct (bundled_linked b) as [L0 L1 L2 L3 L4 L5 L6]. constructor.
  - intros s o a s'. apply tidier_step.
  - intros s code x s' [HT _]. apply L1. exact HT.
  - intros s o a s' code x [HT _]. apply L2. exact HT.
  - intros s id i s' [HT _]. apply L3. exact HT.
  - intros s uid cid i s' [HT _]. apply L4. exact HT.
  - intros s uid cid scope i s' [HT _]. apply L5. exact HT.
  - intros s o a s' id i [HT _]. apply L6. exact HT.
Qed.

Lemma find_access_step b s t x s' : sstep b s (OFindByAccess t) x s' ->
  x = match sget t (st_tokens s) with Some k => (Some k, None) | None => failed end.
Proof.
  intros H.
  assert (X : forall o a, sstep b s o a s' -> match o as o0 return ans o0 -> Prop with
     OFindByAccess t => fun a => a = match sget t (st_tokens s) with Some k => (Some k, None) | None => failed end
     | _ => fun _ => True end a).
  { intros o a HS. destruct HS; try exact I. reflexivity. }
  exact (X _ _ H).
Qed.
Lemma find_refresh_step b s t x s' : sstep b s (OFindByRefresh t) (Some x, None) s' ->
  exists k, In (k, x) (st_tokens s) /\ ot_refresh x = t.
Proof.
  intros H.
  assert (X : forall o a, sstep b s o a s' -> match o as o0 return ans o0 -> Prop with
     OFindByRefresh t => fun a => forall x, a = (Some x, None) -> exists k, In (k, x) (st_tokens s) /\ ot_refresh x = t
     | _ => fun _ => True end a).
  { intros o a HS. destruct HS; try exact I; intros y Hy.
    - injection Hy as <-. eauto.
    - discriminate. }
  exact (X _ _ H x eq_refl).
Qed.

Lemma bundled_tokens b : token_store (sstep b) tidier (fun s t => sget t (st_tokens s)).
Proof.
  constructor.
  - intros s t k s' _ H. apply find_access_step in H. destruct (sget t (st_tokens s)); [congruence|discriminate].
  - intros s t k s' [_ HN] H. destruct (find_refresh_step _ _ _ _ _ H) as (t' & HI & _). exists t'. apply nodup_sget; assumption.
  - intros s o a s' t k [HT _] H HK. eapply token_step; eauto.
Qed.

Lemma bundled_scopes b : scope_store (sstep b) tidier (fun s id => zget id (st_infos s)).
Proof.
  intros s o a s' id i [(_ & T2 & _) _] H. destruct H; try (intros HX; left; eexists; split; [exact HX|reflexivity]).
  - cbn [set_infos st_infos]. unfold zget at 1. rewrite zget_aput. destruct (Z.eqb_spec id id0) as [->|].
    + intros HX. injection HX as <-. right. exists uid, cid, i'. split; [reflexivity|]. destruct (T2 _ _ H) as [E _]. exact E.
    + intros HX. left. eauto.
  - cbn [set_infos st_infos]. unfold zget at 1. rewrite zget_aput. destruct (Z.eqb_spec id (st_next_info s)) as [->|].
    + intros HX. injection HX as <-. right. exists uid, cid, i'. split; reflexivity.
    + intros HX. left. eauto.
Qed.
