(** * Proofs about the authorization endpoint: validating a request. *)
From Coq Require Import Lia.
From Verif Require Import WpTac Sha Utils Assertion IdToken AuthzResponse AuthzEndpoint TokenSpec AuthzSpec
  UtilsFacts AuthzFacts AuthzDecide.

(** ** The client and the redirect URI *)

Definition client_guard (r : request) : guard := fun h o =>
  match o with
  | OFindClient cid => cid = form_value r "client_id"
  | OLog _ _ _ => True
  | OErrorScreen _ => forall c, ~ approved r c h
  | _ => False
  end.

Definition client_post (r : request) : post (option (client * string * string)) := fun t x =>
  match x with
  | Done None => error_screen_only r t /\ http_ops t = [] /\ forall c, ~ approved r c t
  | Done (Some (c, cid, ruri)) =>
      cid = form_value r "client_id" /\ ruri = form_value r "redirect_uri" /\ approved r c t /\ http_ops t = []
  | Panicked => http_ops t = []
  end.

Definition found_client (e : event) : option (dres client) :=
  match e with
  | Ev o a => (match o as o0 return ans o0 -> option (dres client) with
               | OFindClient _ => fun x => Some x
               | _ => fun _ => None
               end) a
  end.

Lemma hr_client_wp r : wp (client_guard r) (client_post r) [] (hr_client r).
Proof.
  unfold hr_client. cbv zeta.
  repeat (wp_step; sdestruct); hist; unfold client_post.
  all: try reflexivity.
  all: try (repeat split; try reflexivity; auto;
            eexists; eexists; split; [reflexivity|exact I]).
  all: try (intros c' (H1 & H2 & H3 & er & rest & H4 & H5); try congruence;
    apply (f_equal (map found_client)) in H4; cbn in H4; inversion H4; subst; try contradiction; congruence).
  all: split; [unfold error_screen_only|split; [reflexivity|
    intros c' (H1 & H2 & H3 & er & rest & H4 & H5); try congruence;
    apply (f_equal (map found_client)) in H4; cbn in H4; inversion H4; subst; try contradiction; congruence]].
  all: destruct (string_dec (form_value r "client_id") ""); try congruence;
       try (destruct (string_dec (form_value r "redirect_uri") ""); try congruence); eexists; reflexivity.
Qed.

(** ** Response type and mode *)

Lemma judge_asks r f : judge_response_type (form_value r "response_type") = Some f <-> asks_for r f.
Proof.
  unfold asks_for. destruct (words_exist_unique (form_value r "response_type")) as (l & HW & HU). split.
  - intros H. exists l. split; auto. apply (judge_spec _ _ _ HW). exact H.
  - intros (l' & H1 & H2). apply HU in H1 as H3. subst l'. apply (judge_spec _ _ _ HW). exact H2.
Qed.

Lemma asks_not_direct r f : asks_for r f -> f_type f <> FDirectGrant.
Proof.
  intros (l & _ & _ & _ & _ & _ & ->).
  destruct (in_dec string_dec "code" l); [destruct (list_eq_dec string_dec l ["code"])|]; discriminate.
Qed.

Lemma default_mode_flow pol f : f_type f <> FDirectGrant -> default_mode pol (f_type f) = flow_default pol f.
Proof. unfold default_mode, flow_default. destruct (f_type f); congruence. Qed.

Lemma mode_rank_level m : rmode_level m = match mode_rank m with Some n => Z.of_nat n | None => (-1)%Z end.
Proof.
  unfold rmode_level, mode_rank, MQuery, MFragment, MFormPost.
  destruct (string_dec m "query") as [->|H1]; [reflexivity|].
  destruct (m =s? "query") eqn:E1; sdestruct; [congruence|].
  destruct (string_dec m "fragment") as [->|H2]; [reflexivity|].
  destruct (m =s? "fragment") eqn:E2; sdestruct; [congruence|].
  destruct (string_dec m "form_post") as [->|H3]; [reflexivity|].
  destruct (m =s? "form_post") eqn:E3; sdestruct; [congruence|]. reflexivity.
Qed.

Lemma rmode_validate_rank m : rmode_validate m = true -> mode_rank m <> None.
Proof.
  unfold rmode_validate, mode_rank, MQuery, MFragment, MFormPost.
  destruct (string_dec m "query"); [discriminate|].
  destruct (string_dec m "fragment"); [discriminate|].
  destruct (string_dec m "form_post"); [discriminate|].
  destruct (m =s? "query") eqn:E1; sdestruct; [congruence|].
  destruct (m =s? "fragment") eqn:E2; sdestruct; [congruence|].
  destruct (m =s? "form_post") eqn:E3; sdestruct; [congruence|]. discriminate.
Qed.

Lemma compare_at_least m d : rmode_compare m d = true -> mode_rank d <> None -> at_least m d.
Proof.
  unfold rmode_compare, at_least. rewrite !mode_rank_level. intros H HD. apply Z.leb_le in H.
  destruct (mode_rank d) as [b|]; [|congruence]. destruct (mode_rank m) as [a|]; [|lia].
  exists a, b. repeat split; auto. lia.
Qed.

Lemma at_least_compare m d : at_least m d -> rmode_compare m d = true.
Proof.
  intros (a & b & H1 & H2 & H3). unfold rmode_compare. rewrite !mode_rank_level, H1, H2.
  apply Z.leb_le. lia.
Qed.
Lemma unknown_compare m d : mode_rank d = None -> rmode_compare m d = true.
Proof.
  intros H. unfold rmode_compare. rewrite !mode_rank_level, H. apply Z.leb_le.
  destruct (mode_rank m); lia.
Qed.
Lemma at_least_refl d : mode_rank d <> None -> at_least d d.
Proof. unfold at_least. destruct (mode_rank d) as [a|]; [|congruence]. intros _. exists a, a. auto. Qed.

Definition quiet : guard := fun h o =>
  match o with
  | OLog _ _ _ | OSetHeader _ _ | OStatus _ | OBody _ | ORedirect _ | OMapOrder _ | OChooseLocale _ => True
  | _ => False
  end.
Lemma quiet_free : free quiet.
Proof.
  intros h o [H|[[m ->]|(a & b & d & ->)]]; [|exact I|exact I].
  destruct o; simpl in H; try discriminate; exact I.
Qed.

Lemma wp_early {A} (Q : post (option A)) E mode ruri typ desc state h :
  In typ error_types -> http_ops h = [] ->
  (forall t, error_sent mode ruri state typ (h ++ t)%list -> Q (h ++ t)%list (Done None)) ->
  Q h Panicked ->
  wp quiet Q h (early E mode ruri typ desc state).
Proof.
  intros HT H0 HK HP. unfold early, rh_error. apply wp_send; [apply quiet_free| |exact HP].
  intros ta HS. apply wp_ret. apply HK. exists desc, (error_params typ desc state).
  split; [|split; [auto|apply error_params_holds]]. exists h, ta. auto.
Qed.

Definition mode_post (pol : policy) (r : request) (ruri state : string)
  : post (option (flow * string * string)) := fun t x =>
  match x with
  | Done None => exists m typ, error_sent m ruri state typ t /\ forall f, asks_for r f -> mode_for pol r f m
  | Done (Some (f, m, rt)) =>
      http_ops t = [] /\ rt = form_value r "response_type" /\ asks_for r f /\ mode_for pol r f m
  | Panicked => http_ops t = []
  end.

Lemma asks_unique r f f' : asks_for r f -> asks_for r f' -> f = f'.
Proof. intros H1 H2. apply judge_asks in H1. apply judge_asks in H2. congruence. Qed.

Ltac estep :=
  lazymatch goal with
  | |- wp _ _ _ (early _ _ _ _ _ _) =>
      apply wp_early; [simpl; tauto|reflexivity| |reflexivity]; let t := fresh "t" in let Ht := fresh "Ht" in intros t Ht
  | |- wp _ _ _ (bind (early _ _ _ _ _ _) _) =>
      apply wp_bind; apply wp_early; [simpl; tauto|reflexivity| |reflexivity];
      let t := fresh "t" in let Ht := fresh "Ht" in intros t Ht; cbv beta iota
  | |- wp _ _ _ (Vis _ _) => apply wp_vis; [exact I|intro; cbn beta]
  | |- wp _ _ _ (bind (bind ?p ?f) ?g) => apply wp_bind
  | _ => wp_step
  end.

Lemma hr_mode_wp E pol r ruri state :
  wp quiet (mode_post pol r ruri state) [] (hr_mode E pol r ruri state).
Proof.
  unfold hr_mode. cbv zeta.
  destruct (form_value r "response_type" =s? "") eqn:ER; sdestruct.
  { repeat estep. do 2 eexists. split; [exact Ht|]. intros f Hf. apply judge_asks in Hf.
    rewrite ER in Hf. discriminate. }
  destruct (judge_response_type (form_value r "response_type")) as [f|] eqn:EJ.
  2: { repeat estep. do 2 eexists. split; [exact Ht|]. intros f Hf. apply judge_asks in Hf. congruence. }
  apply judge_asks in EJ. pose proof (asks_not_direct _ _ EJ) as HD.
  rewrite (default_mode_flow pol f HD).
  assert (HB : mode_rank (form_value r "response_mode") <> None ->
     rmode_compare (form_value r "response_mode") (flow_default pol f) = true \/ p_level_check pol = false ->
     mode_for pol r f (form_value r "response_mode")).
  { intros H1 H2. split; [auto|]. split; [|auto]. intros HL HN. destruct H2 as [H2|H2]; [|congruence].
    apply compare_at_least; auto. }
  assert (HDF : mode_rank (form_value r "response_mode") = None \/
     (rmode_compare (form_value r "response_mode") (flow_default pol f) = false /\ p_level_check pol = true) ->
     mode_for pol r f (flow_default pol f)).
  { intros HU. split; [auto|]. split; [intros _ H; apply at_least_refl; auto|]. intros [U1 U2]. exfalso.
    destruct HU as [HU|[HU HL]]; [congruence|].
    destruct (mode_rank (flow_default pol f)) eqn:ED.
    - rewrite at_least_compare in HU; [discriminate HU|]. apply U2; [auto|discriminate].
    - rewrite (unknown_compare _ _ ED) in HU. discriminate HU. }
  assert (HA : forall m, mode_for pol r f m -> forall f', asks_for r f' -> mode_for pol r f' m).
  { intros m Hm f' Hf. rewrite (asks_unique _ _ _ Hf EJ). exact Hm. }
  destruct (form_value r "response_mode" =s? "") eqn:EM; sdestruct.
  { assert (HN0 : mode_rank (form_value r "response_mode") = None) by (rewrite EM; reflexivity).
    specialize (HDF (or_introl HN0)). repeat estep; hist.
    all: try (do 2 eexists; split; [exact Ht|apply HA; auto]).
    all: split; [reflexivity|]; split; [reflexivity|]; split; [auto|]; auto. }
  destruct (rmode_validate (form_value r "response_mode")) eqn:EV.
  { apply rmode_validate_rank in EV. repeat estep; hist.
    all: try (do 2 eexists; split; [exact Ht|apply HA; auto]).
    all: split; [reflexivity|]; split; [reflexivity|]; split; [auto|]; auto. }
  assert (HN0 : mode_rank (form_value r "response_mode") = None).
  { destruct (mode_rank (form_value r "response_mode")) eqn:EN; [|reflexivity]. exfalso.
    unfold mode_rank in EN. unfold rmode_validate, MQuery, MFragment, MFormPost in EV.
    destruct (string_dec _ "query") as [H|]; [rewrite H in EV; discriminate EV|].
    destruct (string_dec _ "fragment") as [H|]; [rewrite H in EV; discriminate EV|].
    destruct (string_dec _ "form_post") as [H|]; [rewrite H in EV; discriminate EV|]. discriminate EN. }
  specialize (HDF (or_introl HN0)). repeat estep; hist.
  all: try (do 2 eexists; split; [exact Ht|apply HA; auto]).
  all: split; [reflexivity|]; split; [reflexivity|]; split; [auto|]; auto.
Qed.

(** ** The other parameters *)

Lemma scope_split_words s l : words_of s l -> split_on space s = l.
Proof. apply words_split. Qed.

Lemma offline_wp pol f p s :
  wp quiet (fun t x => http_ops t = [] /\
     match x with Done (Some s') => offline_rule f p s s' | Done None => True | Panicked => False end)
     [] (offline_scope pol f p s).
Proof.
  unfold offline_scope.
  assert (HC : include_consent p = true <-> has_word p "consent").
  { change (include_consent p) with (scope_include p "consent"). apply has_word_include. }
  destruct (include_offline s) eqn:EO.
  - assert (HO : has_word s "offline_access") by (apply has_word_include; exact EO).
    destruct (flow_eqb (f_type f) FImplicit || negb (include_consent p))%bool eqn:EF.
    + repeat estep; hist. split; [reflexivity|]. left. split; [auto|]. split.
      * apply orb_true_iff in EF. destruct EF as [EF|EF].
        -- left. destruct (f_type f); simpl in EF; congruence.
        -- right. intros H. apply HC in H. rewrite H in EF. discriminate.
      * destruct (words_exist_unique s) as (l & HW & _). exists l. split; auto.
        apply (scope_remove_spec s l "offline_access" HW).
    + assert (HR : offline_rule f p s s).
      { right. split; auto. right. apply orb_false_iff in EF. destruct EF as [EF1 EF2]. split.
        - intros H. rewrite H in EF1. discriminate.
        - apply HC. destruct (include_consent p); auto. }
      repeat estep; hist; split; auto.
  - repeat estep. split; [reflexivity|]. right. split; auto. left. intros H. apply has_word_include in H.
    unfold include_offline, OfflineAccess in EO. congruence.
Qed.

Lemma max_age_ok pol mas ma : max_age_check pol mas = inr ma ->
  (mas = "" /\ ma = 0%Z) \/ (atoi mas = Some ma /\ (p_min_max_age pol <= ma <= p_max_max_age pol)%Z).
Proof.
  unfold max_age_check. destruct (mas =s? "") eqn:E; sdestruct.
  - intros H. injection H as <-. auto.
  - destruct (atoi mas) as [z|] eqn:EA; [|discriminate].
    destruct (z <? p_min_max_age pol)%Z eqn:E1; [discriminate|].
    destruct (p_max_max_age pol <? z)%Z eqn:E2; [discriminate|].
    intros H. injection H as <-. right. split; auto. apply Z.ltb_ge in E1. apply Z.ltb_ge in E2. lia.
Qed.

Lemma prompt_ok_spec p : p = "" \/ prompt_validate p = true -> prompt_ok p.
Proof.
  intros [->|H]; [left; auto|]. right. destruct (words_exist_unique p) as (l & HW & _). exists l.
  split; auto. apply (prompt_validate_spec _ _ HW). exact H.
Qed.

Lemma display_ok_spec d : display_ok d = true -> In d ["page"; "popup"; "wap"; "touch"].
Proof.
  unfold display_ok. destruct (d =s? "page") eqn:E1; sdestruct; [subst; simpl; auto|].
  destruct (d =s? "popup") eqn:E2; sdestruct; [subst; simpl; auto|].
  destruct (d =s? "wap") eqn:E3; sdestruct; [subst; simpl; auto|].
  destruct (d =s? "touch") eqn:E4; sdestruct; [subst; simpl; auto|]. discriminate.
Qed.

Definition params_post (pol : policy) (r : request) (c : client) (f : flow) (rmode : string)
  : post (option arequest) := fun t x =>
  match x with
  | Done None => exists typ, error_sent rmode (form_value r "redirect_uri") (form_value r "state") typ t
  | Done (Some q) => http_ops t = [] /\ validated pol r c q /\ rq_flow q = Some f /\ rq_mode q = rmode
  | Panicked => http_ops t = []
  end.

Lemma slen_spec s : slen s = Z.of_nat (String.length s).
Proof. reflexivity. Qed.

Ltac refused := lazymatch goal with
  | |- params_post _ _ _ _ _ _ (Done None) => eexists; eassumption
  end.

Ltac pstep :=
  lazymatch goal with
  | |- wp _ _ _ (early _ _ _ _ _ _) =>
      apply wp_early; [simpl; tauto|assumption| |assumption];
      let t := fresh "t" in let Ht := fresh "Ht" in intros t Ht; eexists; exact Ht
  | |- wp _ _ ?h (bind (logm _ _ _) _) =>
      unfold logm, call; cbn [bind]; apply wp_vis; [exact I|];
      let x := fresh "x" in intro x; cbn beta;
      let H := fresh "HH" in
      match goal with |- wp _ _ ?h' _ =>
        assert (H : http_ops h' = [])
          by (rewrite http_ops_app; match goal with K : http_ops h = [] |- _ => rewrite K end; reflexivity)
      end
  end.

Lemma hr_params_wp E pol r c f rmode :
  asks_for r f -> mode_for pol r f rmode -> c_can_redirect c (form_value r "redirect_uri") = true ->
  wp quiet (params_post pol r c f rmode) []
    (hr_params E pol r c (form_value r "client_id") (form_value r "redirect_uri") (form_value r "state")
       f rmode (form_value r "response_type")).
Proof.
  intros HF HMF HCR. unfold hr_params. cbv zeta.
  assert (H0 : @http_ops [] = []) by reflexivity.
  destruct (c_can_flow c (f_type f)) eqn:E1; cbn [negb]; [|repeat pstep].
  destruct (negb (form_value r "display" =s? "") && negb (display_ok (form_value r "display")))%bool eqn:E2;
    [repeat pstep|].
  destruct (max_age_check pol (form_value r "max_age")) as [[desc attrs]|ma] eqn:E3; [repeat pstep|].
  apply max_age_ok in E3.
  destruct (negb (form_value r "prompt" =s? "") && negb (prompt_validate (form_value r "prompt")))%bool eqn:E4;
    [repeat pstep|].
  apply wp_bind.
  assert (HLOG : forall (Q : post unit), (forall t, http_ops t = [] -> Q t (Done tt)) ->
     wp quiet Q [] (if form_value r "prompt" =s? "" then logm LDebug MissingParam [("param", "prompt")] else Ret tt)).
  { intros Q HQ. destruct (form_value r "prompt" =s? "").
    - unfold logm, call. apply wp_vis; [exact I|]. intros []. apply wp_ret. apply HQ. reflexivity.
    - apply wp_ret. apply HQ. reflexivity. }
  apply HLOG. clear HLOG. intros h1 H1. cbv beta iota. apply wp_bind.
  eapply wp_frame; [apply (offline_wp pol f (form_value r "prompt") (form_value r "scope"))|intros t o HO; exact HO|].
  intros t2 [os|] [H2 HOS]; [|contradiction]. cbv beta iota.
  assert (H12 : http_ops (h1 ++ t2)%list = []) by (rewrite http_ops_app, H1, H2; reflexivity).
  remember (h1 ++ t2)%list as h2 eqn:Eh2. clear Eh2.
  destruct os as [scp|]; [|repeat pstep].
  destruct ((scp =s? "") && negb (p_allow_empty_scope pol))%bool eqn:E5; [repeat pstep|].
  destruct (f_id f && negb (include_openid scp))%bool eqn:E6; [repeat pstep|].
  destruct (c_can_scope c (f_type f) scp) eqn:E7; cbn [negb]; [|repeat pstep].
  destruct (negb (flow_eqb (f_type f) FAuthorizationCode) && include_openid scp && f_id f
            && (form_value r "nonce" =s? ""))%bool eqn:E8; [repeat pstep|].
  destruct (negb (form_value r "nonce" =s? "") && (p_max_nonce pol <? slen (form_value r "nonce"))%Z)%bool eqn:E9;
    [repeat pstep|].
  destruct (negb (form_value r "code_verifier" =s? "")
            && (p_max_verifier pol <? slen (form_value r "code_verifier"))%Z)%bool eqn:E10; [repeat pstep|].
  unfold call. cbn [bind]. apply wp_vis; [exact I|]. intros rl. cbn beta.
  assert (H3 : http_ops (h2 ++ [Ev (OChooseLocale (form_value r "ui_locales")) rl])%list = [])
    by (rewrite http_ops_app, H12; reflexivity).
  destruct rl as [locale|]; [|repeat pstep].
  apply wp_ret. split; [exact H3|]. split; [|split; reflexivity].
  assert (HO : f_id f = true -> has_word scp "openid").
  { intros H. rewrite H in E6. apply has_word_include. change (include_openid scp = true).
    destruct (include_openid scp); auto. }
  constructor; cbn [rq_client rq_redirect rq_mode rq_state rq_flow rq_scope rq_display rq_prompt rq_max_age rq_nonce
    rq_verifier rq_idt_hint rq_login_hint]; auto.
  - destruct HF as (l & HF1 & HF2). exists f, l.
    split; [auto|]. split; [auto|]. split; [auto|]. split; [auto|]. split; [auto|]. split; [auto|].
    split; [auto|]. intros H HT HN. rewrite HN in E8. rewrite H in E8.
    assert (HI : include_openid scp = true) by (apply has_word_include; auto). rewrite HI in E8.
    destruct (f_type f); simpl in E8; try discriminate. congruence.
  - intros f' Hf. injection Hf as <-. exact HMF.
  - destruct (scp =s? "") eqn:ES; sdestruct; auto. right.
    destruct (p_allow_empty_scope pol); auto.
  - destruct (form_value r "display" =s? "") eqn:ED; sdestruct.
    + split; [simpl; auto|congruence].
    + split; auto. apply display_ok_spec. destruct (display_ok (form_value r "display")); auto.
  - split; auto. apply prompt_ok_spec. destruct (form_value r "prompt" =s? "") eqn:EP; sdestruct; auto.
    right. destruct (prompt_validate (form_value r "prompt")); auto.
  - split; auto. unfold within. destruct (form_value r "nonce" =s? "") eqn:EP; sdestruct; auto.
    right. cbn [negb andb] in E9. apply Z.ltb_ge in E9. exact E9.
  - split; auto. unfold within. destruct (form_value r "code_verifier" =s? "") eqn:EP; sdestruct; auto.
    right. cbn [negb andb] in E10. apply Z.ltb_ge in E10. exact E10.
Qed.
