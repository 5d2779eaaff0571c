(** * C91, continued: what the resource protector serves, over the bundled store. *)
From Coq Require Import Lia.
From Verif Require Import StrFacts Hoare WpTac Core Utils World Spec TokenSpec OAuthError Grants TokenEndpoint ResourceProtector ResourceSpec ResourceFacts
  GrantFacts TokenFacts TokenProofs LogFacts TestStore SysSpec SysDemo Demo TestServer ServerSpec ServerFacts ServerGrants HistFacts ServerCode TokenComplete StoreFacts TraceFacts IsolFacts WorkFacts PropsServer.
From Verif Require PropsWork.
From Verif Require Import PropsResource.

(** The request carries an access token that stands, for an authorization [i] that stands,
    and is in force whenever the clock is read in the run [tr]. *)
Definition entitled (rp : protector) (r : request) (h : list act) (tr : list event) (i : authinfo) : Prop :=
  exists t x, token_from rp r t /\ standing (gives_token t) (ends_token t) h x /\
    (forall now, In (Ev ONow now) tr -> access_live x now) /\
    standing (gives_info (ot_auth_id x)) (ends_info (ot_auth_id x)) h i.

(** The whole answer is a Bearer challenge with status [st]. *)
Definition challenged (tr : list event) (st : Z) : Prop :=
  exists w, http_ops tr = [OSetHeader "WWW-Authenticate" ("Bearer " ++ w)%string; OStatus st].

Lemma gives_ends_token t : (forall a x, gives_token t a x -> ends_token t a) /\ (forall a x y, gives_token t a x -> gives_token t a y -> x = y).
Proof.
  split.
  - intros a y G. destruct G; econstructor; eauto.
  - intros a y z G G'. apply gives_token_inv in G, G'. destruct G, G'. congruence.
Qed.
Lemma gives_ends_info n : (forall a x, gives_info n a x -> ends_info n a) /\ (forall a x y, gives_info n a x -> gives_info n a y -> x = y).
Proof.
  split.
  - intros a y G. destruct G; econstructor; eauto.
  - intros a y z G G'. apply gives_info_inv in G, G'. destruct G, G'. congruence.
Qed.
Lemma token_unique t h x y : standing (gives_token t) (ends_token t) h x -> standing (gives_token t) (ends_token t) h y -> x = y.
Proof. destruct (gives_ends_token t). eapply standing_fun; eauto. Qed.
Lemma info_unique n h x y : standing (gives_info n) (ends_info n) h x -> standing (gives_info n) (ends_info n) h y -> x = y.
Proof. destruct (gives_ends_info n). eapply standing_fun; eauto. Qed.

Lemma from_unique rp r t t' : token_from rp r t -> token_from rp r t' -> t = t'.
Proof. intros H H'. pose proof (token_from_eq _ _ _ H) as E. rewrite (token_from_eq _ _ _ H') in E. congruence. Qed.
Lemma entitled_fun rp r h tr i j : entitled rp r h tr i -> entitled rp r h tr j -> i = j.
Proof.
  intros (t & x & H1 & H2 & _ & H3) (t' & x' & H1' & H2' & _ & H3').
  pose proof (from_unique _ _ _ _ H1 H1') as E. subst t'. pose proof (token_unique _ _ _ _ H2 H2') as E. subst x'. exact (info_unique _ _ _ _ H3 H3').
Qed.

Lemma in_data tr ev : In ev (data_calls tr) -> In ev tr.
Proof. unfold data_calls. rewrite filter_In. tauto. Qed.

(** A run that changes nothing leaves the store alone. *)
Lemma quiet_run {A} b s (p : prog A) tr r s' : rrun (sstep b) s p tr r s' -> only_reads tr -> s' = s.
Proof.
  induction 1 as [s x|s|s o k x s1 tr r s2 H1 H2 IH]; intros HQ; [reflexivity|reflexivity|].
  pose proof (ServerCode.quiet_step _ _ _ _ _ H1 (HQ (Ev o x) (or_introl eq_refl))) as E. subst s1. apply IH. intros ev HI. apply HQ. right. exact HI.
Qed.

Lemma read_answer {A} v (p : prog A) tr res s' o a : rrun (sstep false) (sv_store v) p tr res s' -> only_reads tr -> In (Ev o a) tr ->
  exists s1, sstep false (sv_store v) o a s1.
Proof.
  intros HX HQ HI. apply in_split in HI. destruct HI as (t1 & t2 & E). apply (rrun_quiet _ _ _ _ _ _ HX _ _ _ _ E).
  intros ev HE. apply HQ. rewrite E. apply in_or_app. left. exact HE.
Qed.
Lemma token_answer {A} h v (p : prog A) tr res s' t a : lives h v -> rrun (sstep false) (sv_store v) p tr res s' -> only_reads tr -> In (Ev (OFindByAccess t) a) tr ->
  (exists x, a = (Some x, None) /\ standing (gives_token t) (ends_token t) h x) \/
  (a = failed /\ forall x, ~ standing (gives_token t) (ends_token t) h x).
Proof.
  intros HL HX HQ HI. destruct (read_answer _ _ _ _ _ _ _ HX HQ HI) as (s1 & HS). pose proof (sstep_access _ _ _ _ HS) as E. cbn in E.
  apply (C91_access_tokens _ _ _ _ _ HL) in HS. destruct HS as [_ HS]. destruct (sget t (st_tokens (sv_store v))) as [x|]; subst a; [left; eauto|right; auto].
Qed.
Lemma info_answer {A} h v (p : prog A) tr res s' n a : lives h v -> rrun (sstep false) (sv_store v) p tr res s' -> only_reads tr -> In (Ev (OFindActiveInfo n) a) tr ->
  (exists i, a = (Some i, None) /\ standing (gives_info n) (ends_info n) h i) \/
  (a = failed /\ forall i, ~ standing (gives_info n) (ends_info n) h i).
Proof.
  intros HL HX HQ HI. destruct (read_answer _ _ _ _ _ _ _ HX HQ HI) as (s1 & HS). pose proof (sstep_lookup _ _ _ _ HS) as E. cbn in E.
  apply (C91_authorizations _ _ _ _ _ HL) in HS. destruct HS as [_ HS]. destruct (zget n (st_infos (sv_store v))) as [x|]; subst a; [left; eauto|right; auto].
Qed.

Lemma live_entitled {A} h v (p : prog A) tr res s' rp r t x now i : lives h v -> rrun (sstep false) (sv_store v) p tr res s' -> only_reads tr ->
  token_from rp r t -> access_live x now -> calls tr = live_calls t x now i -> entitled rp r h tr i.
Proof.
  intros HL HX HQ HT HA E.
  assert (HIn : forall ev, In ev (live_calls t x now i) -> In ev tr) by (intros ev; rewrite <- E; apply in_calls).
  exists t, x. split; [exact HT|]. split; [|split].
  - destruct (token_answer _ _ _ _ _ _ _ _ HL HX HQ (HIn _ (or_introl eq_refl))) as [(y & E1 & HS)|[E1 _]]; [|discriminate E1].
    assert (E2 : y = x) by congruence. subst y. exact HS.
  - intros n HI. assert (HI' : In (Ev ONow n) (calls tr)) by (apply filter_In; auto). rewrite E in HI'.
    destruct HI' as [E1|[E1|[E1|[]]]]; [exfalso; apply (f_equal ev_op) in E1; discriminate E1| |exfalso; apply (f_equal ev_op) in E1; discriminate E1].
    assert (E2 : now = n).
    { apply (f_equal (fun e => match e with Ev ONow a => Some a | _ => None end)) in E1. cbn in E1. congruence. }
    subst n. exact HA.
  - destruct (info_answer _ _ _ _ _ _ _ _ HL HX HQ (HIn _ (or_intror (or_intror (or_introl eq_refl))))) as [(y & E1 & HS)|[E1 _]]; [|discriminate E1].
    assert (E2 : y = i) by congruence. subst y. exact HS.
Qed.

Lemma no_info_lookup rp r tr x u c a : exec (validate rp r) tr x -> ~ In (Ev (OFindInfo u c) a) tr.
Proof.
  intros H HI. apply in_split in HI. destruct HI as (t1 & t2 & ->).
  refine (wp_guard (fun _ o => match o with OFindInfo _ _ => False | _ => True end) (fun _ _ => True) _ _ _ _ _ _ _ H eq_refl).
  clear H. unfold validate, unauthorize, dcheck. repeat (wp_step; auto).
Qed.

Lemma challenge_status rp e tr st : challenge rp e (http_ops tr) -> oerr_status (oe_type e) = st -> challenged tr st.
Proof. intros H E. apply challenge_one in H. destruct H as (v & H & w & ->). exists w. rewrite H, E. reflexivity. Qed.

(* What a refusal of the protector says about the history. *)
Lemma refusal_not h v (p : prog (bool * request)) rp r tr res s' : lives h v -> rrun (sstep false) (sv_store v) p tr res s' -> only_reads tr ->
  (forall u c a, ~ In (Ev (OFindInfo u c) a) tr) -> resource_refusal rp r tr ->
  (forall i, ~ entitled rp r h tr i) /\
  ((forall t, ~ token_from rp r t) /\ challenged tr 400 \/ (exists t, token_from rp r t) /\ challenged tr 401).
Proof.
  intros HL HX HQ HN H. destruct H as [HF HD HC|t x HT HD HC|t tok now now2 HT HD HV HC|t tok now x HT HD HV HC|ev HI HF HC].
  - split; [intros i (t & y & H & _); exact (HF _ H)|]. left. split; [exact HF|]. exact (challenge_status _ _ _ _ HC eq_refl).
  - assert (HI : In (Ev (OFindByAccess t) (x, Some ErrFailed)) tr) by (apply in_data; rewrite HD; left; reflexivity).
    split; [|right; split; [eauto|exact (challenge_status _ _ _ _ HC eq_refl)]].
    intros i (t' & y & H & HS & _). pose proof (from_unique _ _ _ _ HT H) as E. subst t'.
    destruct (token_answer _ _ _ _ _ _ _ _ HL HX HQ HI) as [(z & E9 & _)|[_ HNo]]; [discriminate E9|exact (HNo _ HS)].
  - assert (HIn : forall ev, In ev [Ev (OFindByAccess t) (Some tok, None); Ev ONow now; Ev ONow now2] -> In ev tr) by (intros ev; rewrite <- HD; apply in_calls).
    split; [|right; split; [eauto|exact (challenge_status _ _ _ _ HC eq_refl)]].
    intros i (t' & y & H & HS & HA & _). pose proof (from_unique _ _ _ _ HT H) as E. subst t'.
    destruct (token_answer _ _ _ _ _ _ _ _ HL HX HQ (HIn _ (or_introl eq_refl))) as [(z & E9 & HZ)|[E9 _]]; [|discriminate E9].
    assert (E2 : z = tok) by congruence. subst z. pose proof (token_unique _ _ _ _ HS HZ) as E3. subst y.
    apply HV, HA, HIn. right. left. reflexivity.
  - assert (HIn : forall ev, In ev [Ev (OFindByAccess t) (Some tok, None); Ev ONow now; Ev (OFindActiveInfo (ot_auth_id tok)) (x, Some ErrFailed)] -> In ev tr)
      by (intros ev; rewrite <- HD; apply in_calls).
    split; [|right; split; [eauto|exact (challenge_status _ _ _ _ HC eq_refl)]].
    intros i (t' & y & H & HS & HA & HI). pose proof (from_unique _ _ _ _ HT H) as E. subst t'.
    destruct (token_answer _ _ _ _ _ _ _ _ HL HX HQ (HIn _ (or_introl eq_refl))) as [(z & E9 & HZ)|[E9 _]]; [|discriminate E9].
    assert (E2 : z = tok) by congruence. subst z. pose proof (token_unique _ _ _ _ HS HZ) as E3. subst y.
    destruct (info_answer _ _ _ _ _ _ _ _ HL HX HQ (HIn _ (or_intror (or_intror (or_introl eq_refl))))) as [(z & E8 & _)|[_ HNo]]; [discriminate E8|exact (HNo _ HI)].
  - exfalso. destruct ev as [o a]. destruct (read_answer _ _ _ _ _ _ _ HX HQ HI) as (s1 & HS). destruct (sstep_broken _ _ _ _ _ HS HF) as (u & c & ->). exact (HN _ _ _ HI).
Qed.

Lemma panic_not h v (p : prog (bool * request)) tr res s' n : lives h v -> rrun (sstep false) (sv_store v) p tr res s' -> only_reads tr ->
  In (Ev (OFindActiveInfo n) (None, None)) tr -> False.
Proof. intros HL HX HQ HI. destruct (info_answer _ _ _ _ _ _ _ _ HL HX HQ HI) as [(z & E & _)|[E _]]; discriminate E. Qed.

(* A request is let through, under the owner, client and scope of the authorization behind its token,
   exactly when that token and that authorization stand and the token is in force; otherwise the answer is
   400 or 401.  The store is never changed. *)
Theorem C91_resource : forall rp r tr res h v s', lives h v ->
  rrun (sstep false) (sv_store v) (validate rp r) tr res s' ->
  s' = sv_store v /\ exists ok r', res = Done (ok, r') /\
  (ok = true <-> exists i, entitled rp r h tr i) /\
  (forall i, entitled rp r h tr i -> identified r r' i /\ http_ops tr = []) /\
  (ok = false -> r' = r /\ ((forall t, ~ token_from rp r t) /\ challenged tr 400 \/ (exists t, token_from rp r t) /\ challenged tr 401)).
Proof.
  intros rp r tr res h v s' HL HX. pose proof (rrun_exec _ _ _ _ _ _ HX) as HE. pose proof (validate_reads _ _ _ _ HE) as HQ.
  split; [exact (quiet_run _ _ _ _ _ _ HX HQ)|]. destruct res as [[[] r']|].
  - exists true, r'. split; [reflexivity|]. destruct (accepted_identified _ _ _ _ HE) as (t & x & now & i & HT & HA & E & HI & HO).
    assert (HN : entitled rp r h tr i) by (eapply live_entitled; eauto; rewrite E; reflexivity).
    split; [split; [eauto|reflexivity]|]. split; [|discriminate]. intros j HJ. rewrite (entitled_fun _ _ _ _ _ _ HJ HN). auto.
  - exists false, r'. split; [reflexivity|]. destruct (ResourceFacts.refused _ _ _ _ HE) as [-> HR].
    destruct (refusal_not _ _ _ _ _ _ _ _ HL HX HQ (fun u c a => no_info_lookup _ _ _ _ u c a HE) HR) as [HN HC].
    split; [split; [discriminate|intros (i & HI); destruct (HN _ HI)]|]. split; [intros i HI; destruct (HN _ HI)|]. auto.
  - exfalso. apply panics_exactly in HE. destruct HE as (t & x & now & _ & _ & E). apply (panic_not _ _ _ _ _ _ (ot_auth_id x) HL HX HQ). rewrite E. simpl. auto.
Qed.
Print Assumptions C91_resource.

(* With scopes for paths: the authorization must also have every scope listed for the path. *)
Theorem C91_resource_scopes : forall rp r m tr res h v s', NoDup (map fst m) -> lives h v ->
  rrun (sstep false) (sv_store v) (validate_with_scopes rp r m) tr res s' ->
  s' = sv_store v /\ exists ok r', res = Done (ok, r') /\
  (ok = true <-> exists i, entitled rp r h tr i /\ forall scopes s, required m (r_path r) scopes -> In s scopes -> has_word (ai_scope i) s) /\
  (ok = true -> http_ops tr = [] /\ forall i, entitled rp r h tr i -> identified r r' i) /\
  (ok = false -> (exists i, entitled rp r h tr i) -> challenged tr 403).
Proof.
  intros rp r m tr res h v s' HM HL HX. pose proof (rrun_exec _ _ _ _ _ _ HX) as HE. pose proof (scopes_reads _ _ _ _ _ HE) as HQ.
  split; [exact (quiet_run _ _ _ _ _ _ HX HQ)|]. pose proof (wp_exec _ _ _ _ _ (scopes_wp rp r m HM) HE) as HP. cbn [scopes_post app] in HP.
  destruct res as [[[] r']|].
  - exists true, r'. split; [reflexivity|]. destruct HP as (t & x & now & i & HT & HA & E & HI & HS).
    assert (HN : entitled rp r h tr i) by (eapply live_entitled; eauto; rewrite E; reflexivity).
    split; [split; [eauto|reflexivity]|]. split; [|discriminate]. intros _. split; [rewrite E; reflexivity|].
    intros j HJ. rewrite (entitled_fun _ _ _ _ _ _ HJ HN). subst r'. apply identify_spec.
  - exists false, r'. split; [reflexivity|]. destruct HP as [[-> HR]|(s & HR)].
    + assert (HF : forall u c a, ~ In (Ev (OFindInfo u c) a) tr).
      { intros u c a HI. apply in_split in HI. destruct HI as (t1 & t2 & E). subst tr.
        refine (wp_guard (fun _ o => match o with OFindInfo _ _ => False | _ => True end) (fun _ _ => True) _ _ _ _ _ _ _ HE eq_refl).
        clear. unfold validate_with_scopes, validate, unauthorize, dcheck. repeat (wp_step; auto). }
      destruct (refusal_not _ _ _ _ _ _ _ _ HL HX HQ HF HR) as [HN _].
      split; [split; [discriminate|intros (i & HI & _); destruct (HN _ HI)]|]. split; [discriminate|]. intros _ (i & HI). destruct (HN _ HI).
    + pose proof (scope_refusal_once _ _ _ _ _ HR) as HO. destruct HR as (t & x & now & i & pre & post_ & HT & HA & HRq & _ & HNo & HC & HCh).
      assert (HN : entitled rp r h tr i) by (eapply live_entitled; eauto).
      split; [split; [discriminate|]|].
      { intros (j & HJ & HS). exfalso. rewrite (entitled_fun _ _ _ _ _ _ HJ HN) in HS. apply HNo. apply (HS _ s HRq). apply in_or_app. right. left. reflexivity. }
      split; [discriminate|]. intros _ _. exact (challenge_status _ _ _ _ HCh eq_refl).
  - exfalso. destruct HP as (t & x & now & _ & _ & E). apply (panic_not _ _ _ _ _ _ (ot_auth_id x) HL HX HQ). rewrite E. simpl. auto.
Qed.
Print Assumptions C91_resource_scopes.

(* An access token that was replaced in a refresh, or dropped in a clearing, and not handed out again since, opens nothing. *)
Definition drops_token (t : string) (a : act) : Prop :=
  a = ClearAuth \/ a = ClearAll \/ exists i old e, a = Step (Ev (ORefresh i old) e) /\ ot_access old = t.
Theorem C91_dropped_token : forall rp r tr res h1 a h2 v s' t, lives (h1 ++ a :: h2)%list v -> drops_token t a ->
  (forall b x, b = a \/ In b h2 -> ~ gives_token t b x) -> token_from rp r t ->
  rrun (sstep false) (sv_store v) (validate rp r) tr res s' ->
  res = Done (false, r) /\ challenged tr 401.
Proof.
  intros rp r tr res h1 a h2 v s' t HL HD HG HT HX. destruct (C91_resource _ _ _ _ _ _ _ HL HX) as [_ (ok & r' & -> & HI & _ & HF)].
  destruct ok.
  - exfalso. destruct (proj1 HI eq_refl) as (i & t' & x & HT' & HS & _). pose proof (from_unique _ _ _ _ HT HT') as E. subst t'.
    assert (HEnd : ends_token t a) by (destruct HD as [->|[->|(j & old & e & -> & E)]]; [apply et_auth|apply et_all|eapply et_replaced; eauto]).
    destruct (standing_after _ _ _ _ _ _ HEnd (HG a x (or_introl eq_refl)) HS) as (b & HB & HGb). exact (HG b x (or_intror HB) HGb).
  - destruct (HF eq_refl) as [-> [[HN _]|[_ HC]]]; [destruct (HN _ HT)|]. auto.
Qed.
Print Assumptions C91_dropped_token.

(** ** From the answer of the token endpoint to the resource *)

Lemma lives_tidiest h v : lives h v -> tidiest (sv_store v).
Proof.
  assert (HN : forall u c, tidiest (Store 0 u c [] [] [])).
  { intros u c. split; [split; [split; [|split]|]|]; cbn; try (intros; discriminate); try (intros ? ? []); constructor. }
  assert (HC : forall v x, tidiest (sv_store v) -> tidiest (sv_store (set_clients v x))) by (intros w x H; exact H).
  induction 1 as [|h v n p _ IH|h v o i s u _ IH|h v i g _ IH|h v _ IH|h v _ IH|h n s o a s' _ IH H].
  - apply HN.
  - exact IH.
  - apply HC, IH.
  - unfold allow. destruct (sget i (st_clients (sv_store v))); [apply HC, IH|exact IH].
  - apply HN.
  - apply HN.
  - exact (tidiest_step _ _ _ _ _ IH H).
Qed.
Lemma rrun_rsteps {S} (W : rworld S) s (p : prog unit) tr s' : rrun W s p tr (Done tt) s' -> rsteps W s p tr (Ret tt) s'.
Proof.
  intros H. remember (Done tt) as q eqn:E. induction H as [s x|s|s o k x s1 tr r s2 H1 H2 IH]; [injection E as ->; constructor|discriminate E|econstructor; eauto].
Qed.
Lemma standing_more {A} (g : act -> A -> Prop) (e : act -> Prop) h l x : standing g e h x -> (forall a, In a l -> ~ e a) -> standing g e (h ++ l) x.
Proof.
  intros (l1 & a & l2 & -> & H1 & H2) HN. exists l1, a, (l2 ++ l)%list. split; [rewrite <- app_assoc; reflexivity|]. split; [exact H1|].
  intros b HB. apply in_app_or in HB. destruct HB; auto.
Qed.

(* The access token in a success of the token endpoint opens the resource, for the client that asked and with the
   scope announced, exactly until it expires, as long as neither it nor its authorization is replaced or cleared. *)
Theorem C91_token_works : forall J te r tr res h v s1, lives h v -> only_bundled J te ->
  rrun (sstep false) (sv_store v) (token_handler J te r) tr res s1 -> In 200%Z (statuses tr) ->
  exists c now th rs k i, served J te r tr c now th rs /\ ot_access k = rs_access rs /\ ot_access_expires k = rs_expires rs /\
  ai_client i = c_id c /\ ai_scope i = rs_scope rs /\
  forall l v2 rp r2 tr2 res2 s2, lives (h ++ map Step tr ++ l)%list v2 ->
  (forall a, In a l -> ~ ends_token (rs_access rs) a /\ ~ ends_info (ai_id i) a) -> token_from rp r2 (rs_access rs) ->
  rrun (sstep false) (sv_store v2) (validate rp r2) tr2 res2 s2 ->
  ((forall now, In (Ev ONow now) tr2 -> access_live k now) -> exists r', res2 = Done (true, r') /\ identified r2 r' i /\ http_ops tr2 = []) /\
  (forall now, In (Ev ONow now) tr2 -> ~ access_live k now -> res2 = Done (false, r2) /\ challenged tr2 401).
Proof.
  intros J te r tr res h v s1 HL HB HX H200. pose proof (rrun_exec _ _ _ _ _ _ HX) as HE.
  assert (ER : res = Done tt) by (destruct (success_run _ _ _ _ _ HB HE H200) as (h1 & c1 & ta1 & n1 & th1 & rs1 & l1 & X); apply X). subst res.
  destruct (PropsWork.C76_given_out_tokens_are_on_record _ _ _ _ _ _ _ _ _ _ _ _ _ (bundled_linked3 false) (bundled_separate false) (bundled_answering false) HB
    (lives_tidiest _ _ HL) (rrun_rsteps _ _ _ _ _ HX) H200) as (c & now & th & rs & k & i & K1 & K2 & K3 & K4 & K5 & K6 & K7 & K8).
  exists c, now, th, rs, k, i. split; [exact K1|]. split; [symmetry; exact K2|]. split; [symmetry; exact K3|]. split; [exact K6|]. split; [symmetry; exact K5|].
  destruct v as [n s]. pose proof (lives_run _ _ _ _ _ _ _ HL HX) as HL1.
  apply (ta_found _ _ (tokens_spec _ _ HL1)) in K7. apply (ia_found _ _ (infos_spec _ _ HL1)) in K8.
  assert (EI : ot_auth_id k = ai_id i) by (destruct K8 as (l1 & a & l2 & _ & G & _); destruct (gives_info_inv _ _ _ G); congruence).
  intros l v2 rp r2 tr2 res2 s2 HL2 HN HT HX2. rewrite app_assoc in HL2.
  pose proof (standing_more _ _ _ l _ K7 (fun a HI => proj1 (HN a HI))) as T7.
  pose proof (standing_more _ _ _ l _ K8 (fun a HI => eq_ind_r (fun z => ~ ends_info z a) (proj2 (HN a HI)) EI)) as T8.
  destruct (C91_resource _ _ _ _ _ _ _ HL2 HX2) as [_ (ok & r' & -> & H1 & H2 & H3)]. split.
  - intros HA. assert (HEn : entitled rp r2 ((h ++ map Step tr) ++ l) tr2 i) by (exists (rs_access rs), k; auto).
    rewrite (proj2 H1 (ex_intro _ i HEn)). exists r'. split; [reflexivity|exact (H2 _ HEn)].
  - intros now2 HI HA. destruct ok.
    + exfalso. destruct (proj1 H1 eq_refl) as (j & t & x & E1 & E2 & E3 & _). pose proof (from_unique _ _ _ _ HT E1) as E. subst t.
      pose proof (token_unique _ _ _ _ T7 E2) as E. subst x. exact (HA (E3 _ HI)).
    + destruct (H3 eq_refl) as [-> [[HF _]|[_ HC]]]; [destruct (HF _ HT)|]. auto.
Qed.
Print Assumptions C91_token_works.

(** ** Examples *)
Fixpoint prun {A} (w : answers) (n : nat) (s : store) (p : prog A) : option (list event * outcome A * store) :=
  match n, p with
  | _, Ret x => Some ([], Done x, s)
  | _, Panic => Some ([], Panicked, s)
  | Datatypes.S n, Vis o k =>
      match sfun false w s o with
      | Some (a, s1) => match prun w n s1 (k a) with Some (t, x, s') => Some (Ev o a :: t, x, s') | None => None end
      | None => None
      end
  | O, _ => None
  end.
Lemma prun_rrun {A} w n : forall s (p : prog A) tr x s', prun w n s p = Some (tr, x, s') -> rrun (sstep false) s p tr x s'.
Proof.
  induction n as [|n IH]; intros s p tr x s' H; destruct p as [a| |o k]; cbn in H; try (injection H as <- <- <-; constructor); try discriminate H.
  destruct (sfun false w s o) as [[a s1]|] eqn:E; [|discriminate H]. destruct (prun w n s1 (k a)) as [[[t y] s2]|] eqn:E2; [|discriminate H].
  injection H as <- <- <-. econstructor; [eapply sfun_step; eauto|auto].
Qed.
Definition guard_run (s : store) (r : request) := prun (answers1 "") 40 s (validate rp0 r).
Definition guard_trace (s : store) (r : request) : list event := match guard_run s r with Some (t, _, _) => t | None => [] end.
Definition guard_ok (s : store) (r : request) : option bool := match guard_run s r with Some (_, Done (ok, _), _) => Some ok | _ => None end.
Lemma guard_runs s r b : guard_ok s r = Some b -> exists r' s', rrun (sstep false) s (validate rp0 r) (guard_trace s r) (Done (b, r')) s'.
Proof.
  unfold guard_ok, guard_trace. destruct (guard_run s r) as [[[t x] s']|] eqn:E; [|discriminate]. destruct x as [[ok r']|]; [|discriminate].
  intros X. injection X as <-. exists r', s'. exact (prun_rrun _ _ _ _ _ _ _ E).
Qed.
Definition opening : request := api_request [("Authorization", "Bearer ACCESS_TOKEN_0")] [] [].
Definition guessing : request := api_request [("Authorization", "Bearer ACCESS_TOKEN_1")] [] [].
Lemma opening_token : token_from rp0 opening "ACCESS_TOKEN_0".
Proof. change "ACCESS_TOKEN_0" with (find_token rp0 opening). apply token_from_some. discriminate. Qed.

Example C91_resource_example :
  lives bar_acts3 (Server 1 bar3) /\ entitled rp0 opening bar_acts3 (guard_trace bar3 opening) bar_info /\
  (exists r' s', rrun (sstep false) bar3 (validate rp0 opening) (guard_trace bar3 opening) (Done (true, r')) s') /\
  (exists r' s', rrun (sstep false) bar3 (validate rp0 guessing) (guard_trace bar3 guessing) (Done (false, r')) s') /\
  statuses (guard_trace bar3 guessing) = [401%Z] /\
  has_word (ai_scope bar_info) "openid" /\ ~ has_word (ai_scope bar_info) "admin".
Proof.
  split; [exact bar_lives3|]. split.
  { exists "ACCESS_TOKEN_0", bar_token. split; [exact opening_token|]. split; [|split].
    - eexists [_; _; _; _; _; _], _, []. split; [reflexivity|]. split; [constructor; vm_compute; reflexivity|]. intros c [].
    - intros now HI. assert (E : guard_trace bar3 opening = live_calls "ACCESS_TOKEN_0" bar_token 1010 bar_info) by (vm_compute; reflexivity).
      rewrite E in HI. destruct HI as [E1|[E1|[E1|[]]]]; [exfalso; apply (f_equal ev_op) in E1; discriminate E1| |exfalso; apply (f_equal ev_op) in E1; discriminate E1].
      apply (f_equal (fun e => match e with Ev ONow a => Some a | _ => None end)) in E1. cbn in E1. injection E1 as <-. unfold access_live. vm_compute. discriminate.
    - eexists [_; _; _; _], _, [_; _]. split; [reflexivity|]. split; [constructor; vm_compute; reflexivity|].
      intros c [<-|[<-|[]]] X; inversion X. }
  split; [apply guard_runs; vm_compute; reflexivity|]. split; [apply guard_runs; vm_compute; reflexivity|]. split; [vm_compute; reflexivity|].
  split; [apply include_word; vm_compute; reflexivity|]. intros X. apply include_word in X. vm_compute in X. discriminate X.
Qed.

(* After a clearing, the token opens nothing. *)
Example C91_dropped_example :
  lives (bar_acts3 ++ [ClearAuth]) (clear_auth_data (Server 1 bar3)) /\ drops_token "ACCESS_TOKEN_0" ClearAuth /\
  token_from rp0 opening "ACCESS_TOKEN_0" /\ (forall b x, b = ClearAuth \/ In b [] -> ~ gives_token "ACCESS_TOKEN_0" b x) /\
  (exists r' s', rrun (sstep false) (sv_store (clear_auth_data (Server 1 bar3))) (validate rp0 opening)
     (guard_trace (sv_store (clear_auth_data (Server 1 bar3))) opening) (Done (false, r')) s').
Proof.
  split; [apply lv_clear_auth, bar_lives3|]. split; [left; reflexivity|]. split; [exact opening_token|].
  split; [intros b x [->|[]] X; inversion X|]. apply guard_runs. vm_compute. reflexivity.
Qed.

(* From the code to the resource. *)
Example C91_works_example :
  let tr := fst (fst (bar_run bar2 code_request)) in let s1 := snd (bar_run bar2 code_request) in
  lives bar_acts (Server 1 bar2) /\ only_bundled demoJ te0 /\
  rrun (sstep false) bar2 (token_handler demoJ te0 code_request) tr (Done tt) s1 /\ In 200%Z (statuses tr) /\
  lives (bar_acts ++ map Step tr ++ [NewUser "dave" "x"]) (create_user "dave" "x" (Server 1 s1)) /\
  (forall a, In a [NewUser "dave" "x"] -> ~ ends_token "ACCESS_TOKEN_0" a /\ ~ ends_info 0 a) /\
  (exists r' s', rrun (sstep false) (sv_store (create_user "dave" "x" (Server 1 s1))) (validate rp0 opening)
     (guard_trace (sv_store (create_user "dave" "x" (Server 1 s1))) opening) (Done (true, r')) s').
Proof.
  cbv zeta. assert (HR : rrun (sstep false) bar2 (token_handler demoJ te0 code_request) (fst (fst (bar_run bar2 code_request))) (Done tt) (snd (bar_run bar2 code_request)))
    by (apply (bar_runs bar2 code_request); vm_compute; reflexivity).
  split; [exact bar_lives2|]. split; [apply demo_te_bundled|]. split; [exact HR|]. split; [vm_compute; auto 10|].
  split; [rewrite app_assoc; apply lv_user; eapply lives_run; [exact bar_lives2|exact HR]|].
  split; [intros a [<-|[]]; split; intros X; inversion X|]. apply guard_runs. vm_compute. reflexivity.
Qed.
