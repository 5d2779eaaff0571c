(** * A request is served exactly if there is no reason against it. *)
From Coq Require Import Lia Permutation.
From Verif Require Import WpTac Utils OAuthError IdToken Assertion Grants TokenEndpoint TokenSpec UtilsFacts GrantFacts
  TokenFacts TokenProofs ShaFacts LeakFacts FaultSpec FaultFacts.

Definition iss_ans (e : event) : option string := match e with Ev OIssuer a => Some a | _ => None end.
Definition clock_ans (e : event) : option Z := match e with Ev OJwtNow a => Some a | _ => None end.

Definition now_ans (e : event) : option Z := match e with Ev ONow a => Some a | _ => None end.

(** [tr'] shows nothing that a good run [tr] does not. *)
Definition within_run (tr' tr : list event) : Prop :=
  (forall ev, In ev tr' -> data_failure ev = None) /\
  (forall ev, In ev tr' -> is_call (ev_op ev) = true -> In ev (calls tr)).

Lemma no_no tr' tr o : within_run tr' tr -> ~ said_no tr' o.
Proof. intros [H _] (a & HI & HF). rewrite (H _ HI) in HF. discriminate. Qed.
Lemma no_break tr' tr : within_run tr' tr -> ~ broke_down tr'.
Proof. intros [H _] (ev & HI & HF). rewrite (H _ HI) in HF. discriminate. Qed.
Lemma seen tr' tr ev : within_run tr' tr -> is_call (ev_op ev) = true -> In ev tr' -> In ev (calls tr).
Proof. intros [_ H] HC HI. auto. Qed.

Lemma verified_fun J raw c t t' : verified J raw c t -> verified J raw c t' -> t' = t.
Proof. intros [H _] [H' _]. congruence. Qed.

(** ** Assertions *)
Lemma assertion_clear J raw c t evs tr' tr e d :
  accepted J raw c t evs -> within_run tr' tr ->
  (forall now, In (Ev OJwtNow now) (calls tr) -> In (Ev OJwtNow now) evs) ->
  (forall iss, In (Ev OIssuer iss) (calls tr) -> In (Ev OIssuer iss) evs) ->
  ~ assertion_fault J raw c tr' e d.
Proof.
  intros (now & exp & iss & HV & HC & HE & HA & HI & ->) HW HN HS HF.
  assert (HP := HV). destruct HP as (HP & k & HK & HVf).
  assert (HN' : forall n, In (Ev OJwtNow n) tr' -> n = now).
  { intros n H. apply (seen _ _ _ HW) in H; [|reflexivity]. apply HN in H. in_ans clock_ans H; [auto|contradiction H]. }
  assert (HS' : forall n, In (Ev OIssuer n) tr' -> n = iss).
  { intros n H. apply (seen _ _ _ HW) in H; [|reflexivity]. apply HS in H. in_ans iss_ans H; [auto|contradiction H]. }
  unfold current in HC.
  destruct HF as [H|H|t' H H1|t' k' H H1 H2|t' n H H1 H2|t' n H H1 H2|t' n H H1 H2|t' H H1|t' x H H1 H2|t' H H1|t' a i H H1 H2 H3|H|H];
    try congruence;
    try (apply (verified_fun _ _ _ _ _ HV) in H; subst t');
    try (apply HN' in H1; subst n; rewrite HC in H2; discriminate H2);
    try congruence.
  - exact (no_no _ _ _ HW H2).
  - apply HS' in H2. congruence.
  - apply HS' in H. congruence.
  - exact (no_break _ _ HW H).
Qed.

(** ** The grants *)

Lemma id_claims_perm cs cs' iss aud sub nonce exp at_ iat ah ch :
  id_claims cs iss aud sub nonce exp at_ iat ah ch -> id_claims cs' iss aud sub nonce exp at_ iat ah ch ->
  Permutation cs cs'.
Proof.
  intros [H1 H2] [H1' H2']. apply NoDup_Permutation.
  - eapply NoDup_map_inv. exact H1.
  - eapply NoDup_map_inv. exact H1'.
  - intros [k v]. rewrite H2, H2'. reflexivity.
Qed.

Lemma in_data ev tr : is_data (ev_op ev) = true -> In ev (calls tr) -> In ev (data_calls tr).
Proof. intros H HI. apply filter_In in HI. apply filter_In. tauto. Qed.

Lemma code_clear J r c now th rs tr' e d : unordered J ->
  code_success J r c now (data_calls th) rs -> within_run tr' th -> ~ code_fault J r c now tr' e d.
Proof.
  intros HU (sess & info & tok & (HC1 & HC2 & HC3 & HC4 & HC5) & _ & _ & _ & _ & rest & HD & HX) HW HF.
  assert (HS : forall s, In (Ev (OFindSession (form_value r "code")) (Some s, None)) tr' -> s = sess).
  { intros s H. apply (seen _ _ _ HW) in H; [|reflexivity]. apply in_data in H; [|reflexivity]. rewrite HD in H.
    destruct HX as [(_ & iss & cs & -> & _)|(_ & -> & _)]; cbn [found_calls app] in H; in_ans sess_ans H; auto; contradiction H. }
  assert (HI : forall s i, incl (found_calls r s i) tr' -> s = sess /\ i = info).
  { intros s i H. assert (s = sess) as -> by (apply HS, H; simpl; auto). split; [reflexivity|].
    assert (H' : In (Ev (OFindActiveInfo (as_auth_id sess)) (Some i, None)) tr') by (apply H; simpl; auto).
    apply (seen _ _ _ HW) in H'; [|reflexivity]. apply in_data in H'; [|reflexivity]. rewrite HD in H'.
    destruct HX as [(_ & iss & cs & -> & _)|(_ & -> & _)]; cbn [found_calls app] in H'; in_ans info_ans H'; auto; contradiction H'. }
  destruct HF as [k H H0|H|s H H0|s i H H0|s H H0|s k H H0 H1 H2|s H H0 H1|s H H0 H1 H2 H3|s i H H0|s H H0|s i iss cs H H0 H1 H2 H3|H];
    try (exact (no_no _ _ _ HW H)); try (exact (no_no _ _ _ HW H0)); try (exact (no_break _ _ HW H)).
  - destruct H as [<-|[<-|[]]]; contradiction.
  - destruct (HI _ _ H) as [-> ->]. contradiction.
  - apply HS in H. subst s. contradiction.
  - apply HS in H. subst s. destruct HC5 as [HC5|HC5]; [contradiction|].
    destruct H1 as [<-|[<-|[]]]; rewrite H2 in HC5.
    + destruct HC5 as [[HC5 _]|[HC5 _]]; discriminate HC5.
    + destruct HC5 as [[_ HC5]|[_ HC5]]; [congruence|].
      rewrite <- b64url_nopad_rfc in HC5. change "" with (b64url_nopad "") in HC5. apply b64url_nopad_inj in HC5.
      pose proof (sha256_length (as_verifier sess)) as HL. rewrite <- HC5 in HL. discriminate HL.
  - apply HS in H. subst s. destruct HC5 as [HC5|[[HC5 _]|[HC5 _]]]; [contradiction| |]; apply H1; rewrite HC5; simpl; auto.
  - apply HS in H. subst s. destruct HC5 as [HC5|HC5]; contradiction.
  - destruct (HI _ _ H) as [-> ->].
    destruct HX as [(_ & iss' & cs' & -> & HX1 & HX2)|(HX & _)]; [|contradiction].
    apply (seen _ _ _ HW) in H1; [|reflexivity]. apply in_data in H1; [|reflexivity]. rewrite HD in H1.
    cbn [found_calls app] in H1. in_ans iss_ans H1; [|contradiction H1]. subst iss'.
    pose proof (id_claims_perm _ _ _ _ _ _ _ _ _ _ _ HX1 H2) as HP.
    apply (H3 (rs_id rs)). destruct HX2 as (HA & kid & HK1 & HK2). split; [exact HA|]. exists kid. split; [|exact HK2].
    rewrite <- HK1. symmetry. apply HU; [apply HX1|exact HP].
Qed.

Lemma refresh_clear r c now th rs tr' e d :
  refresh_success r c now (data_calls th) rs -> within_run tr' th -> ~ refresh_fault r c now tr' e d.
Proof.
  intros (old & info & tok & (HC1 & HC2 & HC3 & HC4) & HD & _) HW HF.
  assert (HS : forall s, In (Ev (OFindByRefresh (form_value r "refresh_token")) (Some s, None)) tr' -> s = old).
  { intros s H. apply (seen _ _ _ HW) in H; [|reflexivity]. apply in_data in H; [|reflexivity]. rewrite HD in H.
    cbn [refresh_found app] in H; in_ans refresh_ans H; auto; contradiction H. }
  assert (HI : forall s i, incl (refresh_found r s i) tr' -> s = old /\ i = info).
  { intros s i H. assert (s = old) as -> by (apply HS, H; simpl; auto). split; [reflexivity|].
    assert (H' : In (Ev (OFindActiveInfo (ot_auth_id old)) (Some i, None)) tr') by (apply H; simpl; auto).
    apply (seen _ _ _ HW) in H'; [|reflexivity]. apply in_data in H'; [|reflexivity]. rewrite HD in H'.
    cbn [refresh_found app] in H'; in_ans info_ans H'; auto; contradiction H'. }
  destruct HF as [H|H|s H H0|s H H0|s i H H0|s i H H0|s i H H0|H];
    try (exact (no_no _ _ _ HW H)); try (exact (no_no _ _ _ HW H0)); try (exact (no_break _ _ HW H)).
  - contradiction.
  - apply HS in H. subst s. lia.
  - destruct (HI _ _ H) as [-> ->]. contradiction.
  - destruct (HI _ _ H) as [-> ->]. contradiction.
Qed.

Lemma direct_clear r c th tr' uid e d : direct_checks r c -> within_run tr' th -> ~ direct_fault r c tr' uid e d.
Proof.
  intros HC HW [H H0|H|i H H0|H];
    try (exact (no_no _ _ _ HW H)); try (exact (no_no _ _ _ HW H0)); try (exact (no_break _ _ HW H)).
  destruct HC as [HC|HC]; congruence.
Qed.

Lemma password_clear r c th rs tr' e d :
  direct_success r c (password_ident r) (calls th) rs -> within_run tr' th -> ~ password_fault r c tr' e d.
Proof.
  intros (h0 & uid & info & tok & (HI1 & HI2 & ->) & HC & HD & _) HW [k H H0|H H0|H|u t d' H H0|H];
    try (exact (no_no _ _ _ HW H)); try (exact (no_break _ _ HW H)).
  - destruct H as [<-|[<-|[]]]; contradiction.
  - destruct HC as [HC|HC]; congruence.
  - exact (direct_clear _ _ _ _ _ _ _ HC HW H0).
Qed.

Lemma client_clear r c th rs tr' e d :
  direct_success r c (client_ident c) (calls th) rs -> within_run tr' th -> ~ client_fault r c tr' e d.
Proof.
  intros (h0 & uid & info & tok & (-> & -> & HO) & HC & HD & _) HW [H|t d' H].
  - lia.
  - exact (direct_clear _ _ _ _ _ _ _ HC HW H).
Qed.

Lemma jwt_clear J r c th rs tr' e d :
  direct_success r c (jwt_ident J r c) (calls th) rs -> within_run tr' th -> ~ jwt_fault J r c tr' e d.
Proof.
  intros (h0 & uid & info & tok & (t & evs & sub & HI1 & HI2 & HI3 & ->) & HC & HD & _) HW HF.
  pose proof HI2 as HI4. destruct HI4 as (now & exp & iss & HV & _ & _ & _ & _ & HE).
  destruct HF as [H|x d' H|t' H H0|t' s H H0 H1|u s x d' H H0]; try (exact (no_no _ _ _ HW H1)).
  - contradiction.
  - revert H. apply (assertion_clear J _ c t evs tr' th x d' HI2 HW); intros n HN; rewrite HD, HE in HN; rewrite HE;
      cbn [app direct_calls] in HN; cbn [In] in HN;
      repeat (destruct HN as [HN|HN]; [solve [discriminate HN|rewrite HN; simpl; auto]|]); contradiction HN.
  - rewrite (verified_fun _ _ _ _ _ HV H) in H0. congruence.
  - exact (direct_clear _ _ _ _ _ _ _ HC HW H0).
Qed.

Lemma grant_clear J h r c now th rs tr' e d : unordered J ->
  exec (h r c now) th (Done (inl rs)) -> within_run tr' th -> ~ grant_fault J r c now tr' h e d.
Proof.
  intros HU He HW HF. destruct HF as [t d H|t d H|t d H|t d H|t d H]; revert H.
  - apply (wp_exec _ _ _ _ _ (authorization_code_wp _ _ _ _)) in He. destruct He as (_ & _ & He). eapply code_clear; eauto.
  - apply (wp_exec _ _ _ _ _ (refresh_token_wp _ _ _)) in He. destruct He as (_ & _ & He). eapply refresh_clear; eauto.
  - apply (wp_exec _ _ _ _ _ (password_grant_wp _ _ _)) in He. destruct He as (_ & _ & He). eapply password_clear; eauto.
  - apply (wp_exec _ _ _ _ _ (client_credentials_wp _ _ _)) in He. destruct He as (_ & _ & He). eapply client_clear; eauto.
  - apply (wp_exec _ _ _ _ _ (jwt_grant_wp _ _ _ _)) in He. destruct He as (_ & _ & He). eapply jwt_clear; eauto.
Qed.

(** ** The endpoint *)

Lemma split_at {A} (P : A -> Prop) x y (a a' b b' : list A) :
  (a ++ x :: b = a' ++ y :: b')%list -> (forall z, In z a -> ~ P z) -> (forall z, In z a' -> ~ P z) -> P x -> P y ->
  a = a' /\ x = y /\ b = b'.
Proof.
  revert a'. induction a as [|u a IH]; intros [|v a'] H HA HA' HX HY; cbn [app] in H; injection H as H1 H2.
  - auto.
  - exfalso. apply (HA' v); [simpl; auto|]. rewrite <- H1. exact HX.
  - exfalso. apply (HA u); [simpl; auto|]. rewrite H1. exact HY.
  - subst v. destruct (IH a' H2) as (-> & -> & ->); auto; intros z Hz; [apply HA|apply HA']; simpl; auto.
Qed.

Definition is_now (e : event) : Prop := exists n, e = Ev ONow n.
Lemma auth_no_now J te r c ta : authenticated J te r c ta -> forall z, In z ta -> ~ is_now z.
Proof.
  intros H z Hz (n & ->).
  destruct H as [cid sec b H1 H2|ca t sub evs H1 H2 (now & exp & iss & H3 & H4 & H5 & H6 & H7 & ->)];
    repeat (destruct Hz as [Hz|Hz]; [discriminate Hz|]); contradiction Hz.
Qed.
Lemma auth_calls J te r c ta : authenticated J te r c ta -> calls ta = ta.
Proof.
  intros [cid sec b H1 H2|ca t sub evs H1 H2 (now & exp & iss & H3 & H4 & H5 & H6 & H7 & ->)]; reflexivity.
Qed.
Lemma auth_client J te r c ta cid c' : authenticated J te r c ta -> In (Ev (OFindClient cid) (Some c', None)) ta -> c' = c.
Proof.
  intros [cid' sec b H1 H2|ca t sub evs H1 H2 (now & exp & iss & H3 & H4 & H5 & H6 & H7 & ->)] H; in_ans client_ans H; auto; contradiction H.
Qed.

Lemma bundled_no_client J h r c now th x cid a : bundled J h -> exec (h r c now) th x -> ~ In (Ev (OFindClient cid) a) th.
Proof.
  intros HB He HI. apply in_split in HI. destruct HI as (t1 & t2 & HE).
  destruct HB.
  - apply (wp_guard _ _ _ _ _ _ _ _ (authorization_code_wp J r c now) He HE).
  - apply (wp_guard _ _ _ _ _ _ _ _ (refresh_token_wp r c now) He HE).
  - apply (wp_guard _ _ _ _ _ _ _ _ (password_grant_wp r c now) He HE).
  - apply (wp_guard _ _ _ _ _ _ _ _ (client_credentials_wp r c now) He HE).
  - apply (wp_guard _ _ _ _ _ _ _ _ (jwt_grant_wp J r c now) He HE).
Qed.

Lemma in_calls ev tr : In ev tr -> is_call (ev_op ev) = true -> In ev (calls tr).
Proof. intros. apply filter_In. auto. Qed.

Lemma served_no_reason J te r tr res st e d :
  unordered J -> only_bundled J te -> exec (token_handler J te r) tr res -> In 200%Z (statuses tr) ->
  ~ reason J te r tr st e d.
Proof.
  intros HU HB He HI HF.
  destruct (success_run _ _ _ _ _ HB He HI) as (h & c & ta & now & th & rs & l & HR & HA & HG & HX & HT & _ & _ & HL & _ & _ & HGood & _).
  assert (HGT : form_value r "grant_type" <> "").
  { destruct (token_handler_cases _ _ _ _ _ He) as [HS|(h' & c' & ta' & tg' & HG')]; [exfalso|apply HG'].
    destruct HS as [(_ & _ & H)|[(_ & _ & H)|(_ & _ & -> & _)]].
    - unfold statuses in HI. rewrite H in HI. simpl in HI. destruct HI as [HI|[]]. discriminate.
    - apply refused_ops in H. tauto.
    - destruct HI. }
  assert (HBh := registered_bundled _ _ _ _ HB HR).
  assert (HNO : forall o, ~ said_no tr o) by (intros o (a & H1 & H2); rewrite (HGood _ H1) in H2; discriminate).
  assert (HNB : ~ broke_down tr) by (intros (ev & H1 & H2); rewrite (HGood _ H1) in H2; discriminate).
  assert (HCl : forall cid c', In (Ev (OFindClient cid) (Some c', None)) tr -> c' = c).
  { intros cid c' H. rewrite HT in H. apply in_app_or in H. destruct H as [H|[H|H]].
    - eapply auth_client; eauto.
    - discriminate H.
    - apply in_app_or in H. destruct H as [H|H]; [exfalso; eapply bundled_no_client; eauto|].
      apply in_calls in H; [|reflexivity]. rewrite HL in H. destruct H. }
  assert (HPr : forall cid sec b, presented te r cid sec b -> c_match_secret c sec = true).
  { intros cid sec b H. inversion HA; subst.
    - destruct (presented_fun _ _ _ _ _ _ _ _ H H0) as (-> & -> & ->). assumption.
    - destruct H0 as (_ & HN & _). destruct (HN _ _ _ H). }
  destruct HF as [H|H H0|H H0|cid sec b H H0|cid sec b c' H H0 H1|cid sec b c' H H0 H1 H2|ca ta' rest e d H H0 H1 H2|ta' th' rest h' c' now' e d H H0 H1 H2|H].
  - contradiction.
  - exact (H0 _ HR).
  - inversion HA; subst; [exact (H _ _ _ H1)|exact (H0 _ H1)].
  - exact (HNO _ H0).
  - apply HCl in H0. subst c'. rewrite (HPr _ _ _ H) in H1. discriminate.
  - apply HCl in H0. subst c'. rewrite HG in H2; [discriminate|eauto].
  - assert (HIn : forall ev, In ev ta' -> In ev ta).
    { intros ev Hev. rewrite HT in H0. clear -Hev H0 H1. revert ta H0. induction ta' as [|x ta' IH]; intros ta H0; [destruct Hev|].
      destruct ta as [|y ta]; cbn [app] in H0; injection H0 as HE H0.
      - exfalso. apply (H1 now). left. congruence.
      - destruct Hev as [<-|Hev]; [left; auto|right]. apply IH; auto. intros n Hn. apply (H1 n). right. exact Hn. }
    assert (HW : within_run ta' ta).
    { split; [|intros ev H4 H5; apply in_calls; auto]. intros ev H4. apply HGood. rewrite H0. apply in_or_app. auto. }
    inversion HA as [cid sec b HP _ HE|ca' t sub evs HP HS HAc HE].
    + destruct H as (_ & HN & _). exact (HN _ _ _ HP).
    + assert (ca' = ca) as -> by (destruct H as (_ & _ & HH & _), HP as (_ & _ & HH' & _); congruence).
      assert (HV : verified J ca c t) by (destruct HAc as (? & ? & ? & HV & _); exact HV).
      assert (HPa := proj1 HV).
      destruct H2 as [H2|t' H2 H3|t' s H2 H3 H4|t' s c' e d H2 H3 H4 H5|H2]; try congruence.
      * exact (no_no _ _ _ HW H4).
      * apply HIn in H4. rewrite (auth_client _ _ _ _ _ _ _ HA H4) in H5. revert H5.
        apply (assertion_clear J ca c t evs ta' ta e d HAc HW); intros n HN; rewrite (auth_calls _ _ _ _ _ HA), <- HE in HN;
          destruct HN as [HN|HN]; try discriminate HN; exact HN.
      * exact (no_break _ _ HW H2).
  - pose proof H1 as HT'. rewrite HT in HT'.
    destruct (split_at is_now _ _ _ _ _ _ HT' (auth_no_now _ _ _ _ _ HA) (auth_no_now _ _ _ _ _ H)) as (E1 & E2 & E3);
      [eexists; reflexivity|eexists; reflexivity|].
    assert (now' = now) as -> by (apply (f_equal now_ans) in E2; injection E2; auto). subst ta'.
    assert (c' = c) as ->.
    { inversion H as [cid sec b HP HM HE|ca' t sub evs HP HS HAc HE]; (eapply auth_client; [exact HA|rewrite <- HE; left; reflexivity]). }
    rewrite (registered_fun _ _ _ _ H0 HR) in H2. revert H2. apply (grant_clear J h r c now th rs); [exact HU|exact HX|].
    split.
    + intros ev Hev. apply HGood. rewrite H1. apply in_or_app. right. right. apply in_or_app. auto.
    + intros ev Hev Hc. assert (HIn : In ev (th ++ l)) by (rewrite E3; apply in_or_app; auto).
      apply in_app_or in HIn. destruct HIn as [HIn|HIn]; [apply in_calls; auto|].
      apply in_calls in HIn; [|exact Hc]. rewrite HL in HIn. destruct HIn.
  - exact (HNB H).
Qed.

(** ** The library: claims are marshalled sorted by name. *)
From Verif Require Import GoStr StrFacts Codec Json Jwt CodecFacts.

Lemma insert_swap x y l : fst x <> fst y -> insert_member x (insert_member y l) = insert_member y (insert_member x l).
Proof.
  intros HN. induction l as [|z l IH]; cbn [insert_member].
  - destruct (sle (fst x) (fst y)) eqn:E1, (sle (fst y) (fst x)) eqn:E2; try reflexivity.
    + destruct (HN (sle_antisym _ _ E1 E2)).
    + destruct (sle_total (fst x) (fst y)); congruence.
  - destruct (sle (fst y) (fst z)) eqn:EY; destruct (sle (fst x) (fst z)) eqn:EX; cbn [insert_member]; rewrite ?EX, ?EY.
    + destruct (sle (fst x) (fst y)) eqn:E1, (sle (fst y) (fst x)) eqn:E2; try reflexivity.
      * destruct (HN (sle_antisym _ _ E1 E2)).
      * destruct (sle_total (fst x) (fst y)); congruence.
    + destruct (sle (fst x) (fst y)) eqn:E1; [|reflexivity].
      rewrite (sle_trans _ _ _ E1 EY) in EX. discriminate.
    + destruct (sle (fst y) (fst x)) eqn:E1; [|reflexivity].
      rewrite (sle_trans _ _ _ E1 EX) in EY. discriminate.
    + rewrite IH. reflexivity.
Qed.

Lemma sort_same l l' : Permutation l l' -> NoDup (map fst l) -> sort_members l = sort_members l'.
Proof.
  induction 1; intros HN; cbn [sort_members].
  - reflexivity.
  - cbn [map] in HN. inversion HN; subst. rewrite IHPermutation; auto.
  - apply insert_swap. cbn [map] in HN. inversion HN as [|? ? H1 _]; subst. intros E. apply H1. left. symmetry. exact E.
  - rewrite IHPermutation1 by exact HN. apply IHPermutation2.
    eapply Permutation_NoDup; [apply Permutation_map, H|exact HN].
Qed.

Lemma gojwt_unordered A : unordered (gojwt A).
Proof.
  intros alg kid cs cs' k HN HP. cbn [gojwt jl_sign].
  assert (E : signing_input alg kid cs = signing_input alg kid cs').
  { unfold signing_input, segment. do 3 f_equal. apply f_equal. f_equal. apply sort_same.
    - apply Permutation_map, HP.
    - rewrite map_map. exact HN. }
  unfold go_sign. rewrite E. reflexivity.
Qed.
