(** * C91 The bundled server: what its administrator said is what it does. *)
From Coq Require Import Lia.
From Verif Require Import StrFacts Hoare Core Utils World Spec TokenSpec AuthzSpec OAuthError Assertion Grants TokenEndpoint AuthzResponse AuthzEndpoint
  GrantFacts TokenFacts TokenProofs LogFacts TestStore SysSpec SysDemo Demo Jwt JsonFull JwtSpec TestServer ServerSpec ServerFacts ServerGrants HistFacts ServerCode TokenComplete AuthzMore PropsAuthz PropsJwt.

(* The part of a history that counts is what follows the last ClearAll; there is one. *)
Theorem C91_since : forall h, exists l, since h l /\ forall l', since h l' -> l' = l.
Proof.
  induction h as [|a h IH] using rev_ind.
  - exists []. split; [split; [intros []|auto]|]. intros l' [_ [<-|(h0 & E)]]; [reflexivity|destruct h0; discriminate E].
  - destruct IH as (l & [HN HL] & HU).
    assert (HA : a = ClearAll \/ a <> ClearAll) by (destruct a; auto; right; discriminate).
    destruct HA as [-> | HA].
    + exists []. split; [split; [intros []|right; exists h; reflexivity]|]. intros l' HS. apply since_snoc in HS.
      destruct HS as [[_ ->]|(l2 & _ & X & _)]; [reflexivity|congruence].
    + exists (l ++ [a])%list. split.
      * split; [rewrite in_app_iff; intros [X|[X|[]]]; congruence|]. destruct HL as [-> |(h0 & ->)]; [auto|]. right. exists h0. rewrite <- app_assoc. reflexivity.
      * intros l' HS. apply since_snoc in HS. destruct HS as [[X _]|(l2 & -> & _ & HS)]; [congruence|]. rewrite (HU _ HS). reflexivity.
Qed.
Print Assumptions C91_since.

(* Users: exactly those created, each with its own number, until everything is cleared. *)
Theorem C91_users : forall h v l name pass a s', lives h v -> since h l -> sstep false (sv_store v) (OFindUser name pass) a s' ->
  s' = sv_store v /\
  match a with
  | (id, None) => user_created l id name pass
  | (_, Some _) => forall id, ~ user_created l id name pass
  end.
Proof.
  intros h v l name pass a s' HL HS H. destruct (users_spec _ _ HL _ HS) as [_ HU].
  split; [inversion H; reflexivity|]. apply sstep_answers in H. cbn in H. destruct a as [id [e|]].
  - destruct H as [_ H]. intros i X. apply HU in X. exact (H _ X).
  - apply HU. exact H.
Qed.
Print Assumptions C91_users.

Lemma cons_inj {A} (x y : A) l m : x :: l = y :: m -> x = y /\ l = m.
Proof. intros H. injection H. auto. Qed.

Theorem C91_user_numbers : forall l id n p n' p', user_created l id n p -> user_created l id n' p' -> n = n' /\ p = p'.
Proof.
  intros l id n p n' p' (l1 & l2 & E1 & N1) (l3 & l4 & E2 & N2). subst id. rewrite E1 in E2. clear E1 l.
  revert l3 E2 N2. induction l1 as [|a l1 IH]; intros [|b l3] E N; cbn [app] in E; apply cons_inj in E; destruct E as [EA E].
  - injection EA as <- <-. auto.
  - exfalso. subst b. cbn [filter is_new_user length] in N. lia.
  - exfalso. subst a. cbn [filter is_new_user length] in N. lia.
  - subst b. apply (IH l3 E). cbn [filter] in N. destruct (is_new_user a); cbn [length] in N; lia.
Qed.
Print Assumptions C91_user_numbers.

(* Clients: exactly those created, as they were created last. *)
Theorem C91_clients : forall h v l id a s', lives h v -> since h l -> sstep false (sv_store v) (OFindClient id) a s' ->
  s' = sv_store v /\
  match a with
  | (Some c, None) => exists owner secret uri later, client_created l id owner secret uri later /\ behaves c id owner secret uri later
  | (None, Some _) => forall owner secret uri later, ~ client_created l id owner secret uri later
  | _ => False
  end.
Proof.
  intros h v l id a s' HL HS H. split; [inversion H; reflexivity|]. pose proof (clients_spec _ _ HL _ HS id) as HC.
  apply sstep_answers in H. cbn in H. subst a. destruct (sget id (st_clients (sv_store v))) as [c|]; exact HC.
Qed.
Print Assumptions C91_clients.

Lemma client_created_fun l id o s u la o' s' u' la' : client_created l id o s u la -> client_created l id o' s' u' la' -> o = o' /\ s = s' /\ u = u' /\ la = la'.
Proof.
  intros (l1 & E1 & N1) (l2 & E2 & N2). rewrite E1 in E2. clear E1 l. revert l2 E2.
  induction l1 as [|a l1 IH]; intros [|b l2] E; cbn [app] in E; apply cons_inj in E; destruct E as [EA E]; subst.
  - injection EA as <- <- <-. auto.
  - exfalso. apply (N1 o' s' u'). apply in_or_app. right. left. reflexivity.
  - exfalso. apply (N2 o s u). apply in_or_app. right. left. reflexivity.
  - exact (IH _ E).
Qed.

Lemma presented_or_not J te r tr res s s' : only_bundled J te -> (forall ca, ~ presented_assertion te r ca) ->
  rrun (sstep false) s (token_handler J te r) tr res s' ->
  (exists cid sec b, presented te r cid sec b) \/ ((forall cid sec b, ~ presented te r cid sec b) /\ ~ In 200%Z (statuses tr)).
Proof.
  intros HB HA HX. pose proof (find_client_credential_spec te r) as HC. destruct (find_client_credential te r) as [[[cid sec] b]|]; [left; eauto|].
  right. split; [exact HC|]. intros HI. destruct (success_run _ _ _ _ _ HB (rrun_exec _ _ _ _ _ _ HX) HI) as (h' & c & ta & _ & _ & _ & _ & _ & H2 & _).
  inversion H2; subst; [destruct (HC _ _ _ H)|destruct (HA _ H)].
Qed.

(* The two grants with the state [s] replaced by the history. *)
Lemma simple_history J te r tr res h v l s' hd : lives h v -> since h l ->
  only_bundled J te -> (forall ca, ~ presented_assertion te r ca) -> r_method r = "POST" -> form_value r "grant_type" <> "" ->
  registered te (form_value r "grant_type") hd -> simple_grant hd ->
  rrun (sstep false) (sv_store v) (token_handler J te r) tr res s' ->
  In 200%Z (statuses tr) <-> exists id owner uri c, admitted l te r (form_value r "grant_type") id owner uri /\
    sget id (st_clients (sv_store v)) = Some c /\ c_owner c = owner /\ asks (sv_store v) r c hd.
Proof.
  intros HL HS HB HA HM HG HR HH HX.
  assert (HP : (exists cid sec b, presented te r cid sec b) \/ forall cid sec b, ~ presented te r cid sec b).
  { pose proof (find_client_credential_spec te r) as HC. destruct (find_client_credential te r) as [[[cid sec] b]|]; [left; eauto|right; exact HC]. }
  destruct HP as [(cid & sec & b & HP)|HP].
  2: { split.
    - intros HI. destruct (success_run _ _ _ _ _ HB (rrun_exec _ _ _ _ _ _ HX) HI) as (h' & c & ta & _ & _ & _ & _ & _ & H2 & _).
      inversion H2; subst; [destruct (HP _ _ _ H)|destruct (HA _ H)].
    - intros (id & o & u & c & (sec & b & la & X & _) & _). destruct (HP _ _ _ X). }
  rewrite (simple_iff _ _ _ _ _ _ _ _ _ _ _ HB HM HG HR HH HP HX). pose proof (clients_spec _ _ HL _ HS) as HC.
  split.
  - intros (c & (H1 & H2 & H3 & H4) & H5). specialize (HC cid). rewrite H1 in HC. destruct HC as (o & s & u & la & HC & HBh).
    exists cid, o, u, c. split; [|split; [exact H1|split; [apply HBh|exact H5]]].
    exists sec, b, la. split; [exact HP|]. apply HBh in H2. subst s. split; [exact HC|]. apply HBh. exact H3.
  - intros (id & o & u & c & (s & b' & la & HP' & HCr & HIn) & H1 & HO & H5).
    destruct (presented_fun _ _ _ _ _ _ _ _ HP HP') as (<- & <- & <-).
    specialize (HC cid). rewrite H1 in HC. destruct HC as (o2 & s2 & u2 & la2 & HC & HBh).
    destruct (client_created_fun _ _ _ _ _ _ _ _ _ _ HC HCr) as (-> & -> & -> & ->).
    exists c. split; [|exact H5]. split; [exact H1|]. split; [apply HBh; reflexivity|]. split; [apply HBh; exact HIn|]. right. apply HBh.
Qed.

(* The password grant answers 200 exactly to the clients that were created with the secret
   presented and allowed to use it, for the users that were created with that password. *)
Theorem C91_password : forall J te r tr res h v l s', lives h v -> since h l ->
  only_bundled J te -> (forall ca, ~ presented_assertion te r ca) -> r_method r = "POST" -> form_value r "grant_type" <> "" ->
  registered te (form_value r "grant_type") password_grant ->
  rrun (sstep false) (sv_store v) (token_handler J te r) tr res s' ->
  In 200%Z (statuses tr) <->
  (exists id owner uri, admitted l te r (form_value r "grant_type") id owner uri) /\
  form_value r "username" <> "" /\ form_value r "password" <> "" /\
  exists uid, user_created l uid (form_value r "username") (form_value r "password").
Proof.
  intros J te r tr res h v l s' HL HS HB HA HM HG HR HX.
  rewrite (simple_history _ _ _ _ _ _ _ _ _ _ HL HS HB HA HM HG HR (or_introl eq_refl) HX). destruct (users_spec _ _ HL _ HS) as [_ HU].
  split.
  - intros (id & o & u & c & H1 & H2 & H3 & [(_ & H4 & H5 & uid & H6)|[E _]]).
    + split; [eauto|]. split; [exact H4|]. split; [exact H5|]. exists uid. apply HU. exact H6.
    + apply (f_equal first_param) in E. rewrite first_password, first_client in E. discriminate E.
  - intros ((id & o & u & H1) & H4 & H5 & uid & H6). pose proof H1 as (s & b & la & _ & HC & _).
    pose proof (clients_spec _ _ HL _ HS id) as HCl. destruct (sget id (st_clients (sv_store v))) as [c|] eqn:E.
    + destruct HCl as (o2 & s2 & u2 & la2 & HC2 & HBh). destruct (client_created_fun _ _ _ _ _ _ _ _ _ _ HC2 HC) as (-> & -> & -> & ->).
      exists id, o, u, c. split; [exact H1|]. split; [exact E|]. split; [apply HBh|]. left. split; [reflexivity|]. split; [exact H4|]. split; [exact H5|].
      exists uid. apply HU. exact H6.
    + destruct (HCl _ _ _ _ HC).
Qed.
Print Assumptions C91_password.

(* The client credentials grant: likewise, for the owner of the client. *)
Theorem C91_client_credentials : forall J te r tr res h v l s', lives h v -> since h l ->
  only_bundled J te -> (forall ca, ~ presented_assertion te r ca) -> r_method r = "POST" -> form_value r "grant_type" <> "" ->
  registered te (form_value r "grant_type") client_credentials ->
  rrun (sstep false) (sv_store v) (token_handler J te r) tr res s' ->
  In 200%Z (statuses tr) <->
  exists id owner uri, admitted l te r (form_value r "grant_type") id owner uri /\ (0 <= owner)%Z.
Proof.
  intros J te r tr res h v l s' HL HS HB HA HM HG HR HX.
  rewrite (simple_history _ _ _ _ _ _ _ _ _ _ HL HS HB HA HM HG HR (or_intror eq_refl) HX).
  split.
  - intros (id & o & u & c & H1 & H2 & H3 & [(E & _)|[_ H4]]).
    + apply (f_equal first_param) in E. rewrite first_password, first_client in E. discriminate E.
    + exists id, o, u. split; [exact H1|]. congruence.
  - intros (id & o & u & H1 & HO). pose proof H1 as (s & b & la & _ & HC & _).
    pose proof (clients_spec _ _ HL _ HS id) as HCl. destruct (sget id (st_clients (sv_store v))) as [c|] eqn:E.
    + destruct HCl as (o2 & s2 & u2 & la2 & HC2 & HBh). destruct (client_created_fun _ _ _ _ _ _ _ _ _ _ HC2 HC) as (-> & -> & -> & ->).
      exists id, o, u, c. split; [exact H1|]. split; [exact E|]. split; [apply HBh|]. right. split; [reflexivity|]. destruct HBh. lia.
    + destruct (HCl _ _ _ _ HC).
Qed.
Print Assumptions C91_client_credentials.

(** ** What the history left *)

(* A code finds the session made for it last, unless it was disabled or cleared since. *)
Theorem C91_codes : forall h v code a s', lives h v -> sstep false (sv_store v) (OFindSession code) a s' ->
  s' = sv_store v /\
  match a with
  | (Some y, None) => exists id x, standing (gives_code code) (ends_code code) h (id, x) /\ session_of id x y
  | (None, Some _) => forall p, ~ standing (gives_code code) (ends_code code) h p
  | _ => False
  end.
Proof.
  intros h v code a s' HL H. split; [inversion H; reflexivity|]. pose proof (codes_spec _ _ HL code) as HC.
  apply sstep_lookup in H. cbn in H. subst a. destruct (sget code (st_sessions (sv_store v))); exact HC.
Qed.
Print Assumptions C91_codes.

(* An authorization is found as it was made last. *)
Theorem C91_authorizations : forall h v id a s', lives h v -> sstep false (sv_store v) (OFindActiveInfo id) a s' ->
  s' = sv_store v /\
  match a with
  | (Some i, None) => standing (gives_info id) (ends_info id) h i
  | (None, Some _) => forall i, ~ standing (gives_info id) (ends_info id) h i
  | _ => False
  end.
Proof.
  intros h v id a s' HL H. split; [inversion H; reflexivity|]. pose proof (ia_found _ _ (infos_spec _ _ HL) id) as HC.
  apply sstep_lookup in H. cbn in H. subst a. destruct (zget id (st_infos (sv_store v))) as [i|]; cbn.
  - apply HC. reflexivity.
  - intros i X. apply HC in X. discriminate X.
Qed.
Print Assumptions C91_authorizations.

(* An access token is found from its making until it is replaced or cleared. *)
Theorem C91_access_tokens : forall h v t a s', lives h v -> sstep false (sv_store v) (OFindByAccess t) a s' ->
  s' = sv_store v /\
  match a with
  | (Some x, None) => standing (gives_token t) (ends_token t) h x
  | (None, Some _) => forall x, ~ standing (gives_token t) (ends_token t) h x
  | _ => False
  end.
Proof.
  intros h v t a s' HL H. split; [inversion H; reflexivity|]. pose proof (ta_found _ _ (tokens_spec _ _ HL) t) as HC.
  assert (E : a = match sget t (st_tokens (sv_store v)) with Some x => (Some x, None) | None => failed end).
  { apply sstep_access in H. exact H. }
  subst a. destruct (sget t (st_tokens (sv_store v))) as [x|]; cbn.
  - apply HC. reflexivity.
  - intros x X. apply HC in X. discriminate X.
Qed.
Print Assumptions C91_access_tokens.

Lemma may_find_standing h v t old : lives h v -> may_find (sv_store v) t old <-> standing (gives_token (ot_access old)) (ends_token (ot_access old)) h old /\ ot_refresh old = t.
Proof.
  intros HL. destruct (tokens_spec _ _ HL) as [HK HN HF]. unfold may_find. split.
  - intros (k & HI & E). pose proof (HK _ _ HI) as X. subst k. split; [|exact E]. apply HF. apply (in_get _ seqb_eq); auto.
  - intros (HS & E). exists (ot_access old). split; [|exact E]. apply HF in HS. apply (get_in _ seqb_eq) in HS. exact HS.
Qed.

(* A refresh token finds one of the tokens that carry it: which one, the store does not say. *)
Theorem C91_refresh_tokens : forall h v t a s', lives h v -> sstep false (sv_store v) (OFindByRefresh t) a s' ->
  s' = sv_store v /\
  match a with
  | (Some x, None) => standing (gives_token (ot_access x)) (ends_token (ot_access x)) h x /\ ot_refresh x = t
  | (None, Some _) => forall k x, standing (gives_token k) (ends_token k) h x -> ot_refresh x <> t
  | _ => False
  end.
Proof.
  intros h v t a s' HL H. split; [inversion H; reflexivity|]. apply sstep_refresh in H. cbn in H.
  destruct a as [[x|] [e|]]; try contradiction.
  - apply (may_find_standing _ _ _ _ HL). exact H.
  - destruct e; try contradiction. intros k x HS. apply (ta_found _ _ (tokens_spec _ _ HL)) in HS. apply (get_in _ seqb_eq) in HS. exact (H _ _ HS).
Qed.
Print Assumptions C91_refresh_tokens.

(* The clients of the bundled server sign with the key of the store. *)
Definition signs (J : jwtlib) : Prop :=
  jl_has_alg J "RS256" = true /\ forall cs, exists tok, jl_sign J "RS256" (Some "my_service_key_id") cs (Some (KRsaPriv 0)) = Some tok.
Lemma signs_for J c id o s u la cs : signs J -> behaves c id o s u la -> exists tok, signed_for J c cs tok.
Proof.
  intros [H1 H2] HB. destruct (H2 cs) as (tok & HT). exists tok. destruct HB as [_ _ _ _ _ _ _ _ _ _ A K Y]. split; [rewrite A; exact H1|].
  exists (Some "my_service_key_id"). rewrite A, K, Y. split; [exact HT|]. right. split; [reflexivity|discriminate].
Qed.

(* The exchange of a code answers 200 exactly to the client that is created with the secret presented and
   allowed the grant type, while the code stands for an authorization of that client, with
   the redirect URI it was asked for with, and the challenge that fits. *)
Theorem C91_code : forall J te r tr res h v l s', lives h v -> since h l ->
  only_bundled J te -> (forall ca, ~ presented_assertion te r ca) -> r_method r = "POST" -> form_value r "grant_type" <> "" ->
  registered te (form_value r "grant_type") (authorization_code J) -> signs J ->
  rrun (sstep false) (sv_store v) (token_handler J te r) tr res s' ->
  In 200%Z (statuses tr) <->
  exists id owner uri, admitted l te r (form_value r "grant_type") id owner uri /\
    form_value r "code" <> "" /\ form_value r "redirect_uri" <> "" /\
    exists n x i, standing (gives_code (form_value r "code")) (ends_code (form_value r "code")) h (n, x) /\
      standing (gives_info n) (ends_info n) h i /\ ai_client i = id /\
      s_redirect x = form_value r "redirect_uri" /\ pkce_passed r (s_verifier x).
Proof.
  intros J te r tr res h v l s' HL HS HB HA HM HG HR HJ HX. pose proof (clients_spec _ _ HL _ HS) as HC.
  pose proof (codes_spec _ _ HL (form_value r "code")) as HCo. pose proof (fun n => ia_found _ _ (infos_spec _ _ HL) n) as HIn.
  destruct (presented_or_not J te r tr res (sv_store v) s' HB HA HX) as [(cid & sec & b & HP)|[HP H0]].
  2: { split; [intros HI; destruct (H0 HI)|]. intros (id & o & u & (sec & b & la & X & _) & _). destruct (HP _ _ _ X). }
  assert (HSg : forall c cs, sget cid (st_clients (sv_store v)) = Some c -> exists tok, signed_for J c cs tok).
  { intros c cs E. specialize (HC cid). rewrite E in HC. destruct HC as (o & s & u & la & _ & HBh). exact (signs_for _ _ _ _ _ _ _ _ HJ HBh). }
  rewrite (code_iff _ _ _ _ _ _ _ _ _ _ HB HM HG HR HSg HP HX). split.
  - intros (c & (H1 & H2 & H3) & y & i & H4 & H5 & C1 & C2 & C3 & C4 & C5). specialize (HC cid). rewrite H1 in HC. destruct HC as (o & s & u & la & HC & HBh).
    rewrite H4 in HCo. destruct HCo as (n & x & HSt & HO). destruct HO as [O1 O2 O3 O4 _ _ _].
    exists cid, o, u. split.
    { exists sec, b, la. split; [exact HP|]. apply HBh in H2. subst s. split; [exact HC|]. apply HBh. exact H3. }
    split; [exact C2|]. split; [exact C1|]. exists n, x, i. split; [exact HSt|]. rewrite O2 in H5. split; [apply HIn; exact H5|].
    split; [rewrite C3; apply HBh|]. rewrite <- O3, <- O4. auto.
  - intros (id & o & u & (sec' & b' & la & HP' & HCr & HAl) & C2 & C1 & n & x & i & HSt & HI & C3 & C4 & C5).
    destruct (presented_fun _ _ _ _ _ _ _ _ HP HP') as (<- & <- & <-).
    specialize (HC cid). destruct (sget cid (st_clients (sv_store v))) as [c|] eqn:E; [|destruct (HC _ _ _ _ HCr)].
    destruct HC as (o2 & s2 & u2 & la2 & HC & HBh). destruct (client_created_fun _ _ _ _ _ _ _ _ _ _ HC HCr) as (-> & -> & -> & ->).
    exists c. split; [split; [exact E|split; [apply HBh; reflexivity|apply HBh; exact HAl]]|].
    destruct (sget (form_value r "code") (st_sessions (sv_store v))) as [y|] eqn:EY; [|destruct (HCo _ HSt)].
    destruct HCo as (n' & x' & HSt' & [O1 O2 O3 O4 _ _ _]).
    pose proof (standing_code_fun _ _ _ _ HSt HSt') as EP. injection EP as <- <-.
    exists y, i. split; [exact EY|]. rewrite O2. split; [apply HIn; exact HI|]. split; [exact C1|]. split; [exact C2|].
    split; [rewrite C3; symmetry; apply HBh|]. rewrite O3, O4. auto.
Qed.
Print Assumptions C91_code.

(* The server can go on after a request: what the request did is part of its history. *)
Lemma lives_steps h n s (p q : prog unit) tr s' : lives h (Server n s) -> rsteps (sstep false) s p tr q s' -> lives (h ++ map Step tr) (Server n s').
Proof.
  intros HL H. revert h HL. induction H as [s p|s o k x s1 tr p2 s2 H1 H2 IH]; intros h HL; cbn [map]; rewrite ?app_nil_r; try exact HL.
  change (h ++ Step (Ev o x) :: map Step tr)%list with (h ++ [Step (Ev o x)] ++ map Step tr)%list. rewrite app_assoc. apply IH. exact (lv_step _ _ _ _ _ _ HL H1).
Qed.
Lemma rrun_prefix {A} b s (p : prog A) tr r s' t1 o a t2 : rrun (sstep b) s p tr r s' -> tr = (t1 ++ Ev o a :: t2)%list ->
  exists q sm sm', rsteps (sstep b) s p t1 q sm /\ sstep b sm o a sm'.
Proof.
  intros H. revert t1. induction H as [s x|s|s o' k x s1 tr r s2 H1 H2 IH]; intros t1 E; try (destruct t1; discriminate E).
  destruct t1 as [|e t1].
  - assert (E1 := f_equal (fun l => hd_error l) E). cbn in E1. exists (Vis o' k), s, s1. split; [constructor|].
    change (match Ev o a with Ev o a => sstep b s o a s1 end). assert (E2 : Ev o' x = Ev o a) by congruence. rewrite <- E2. exact H1.
  - assert (E1 := f_equal (fun l => hd_error l) E). cbn in E1. assert (E2 : Ev o' x = e) by congruence. clear E1. subst e.
    assert (E3 := f_equal (@tl event) E). cbn [tl app] in E3. destruct (IH _ E3) as (q & sm & sm2 & X & Y). exists q, sm, sm2. split; [econstructor; eauto|exact Y].
Qed.
Lemma lives_run h n s (p : prog unit) tr r s' : lives h (Server n s) -> rrun (sstep false) s p tr r s' -> lives (h ++ map Step tr) (Server n s').
Proof.
  intros HL H. revert h HL. induction H as [s x|s|s o k x s1 tr r s2 H1 H2 IH]; intros h HL; cbn [map]; rewrite ?app_nil_r; try exact HL.
  change (h ++ Step (Ev o x) :: map Step tr)%list with (h ++ [Step (Ev o x)] ++ map Step tr)%list. rewrite app_assoc. apply IH. exact (lv_step _ _ _ _ _ _ HL H1).
Qed.

(* A code that was exchanged is not exchanged again, whatever happened in between, unless it was made again. *)
Theorem C91_code_once : forall J te te' r r' tr res s' h v h2 v2 l2 tr2 res2 s2,
  lives h v -> only_bundled J te -> registered te (form_value r "grant_type") (authorization_code J) ->
  rrun (sstep false) (sv_store v) (token_handler J te r) tr res s' -> In 200%Z (statuses tr) ->
  lives (h ++ map Step tr ++ h2) v2 -> since (h ++ map Step tr ++ h2) l2 ->
  (forall i x e, In (Step (Ev (OCreateSession i x) e)) h2 -> s_code x <> form_value r "code") ->
  only_bundled J te' -> (forall ca, ~ presented_assertion te' r' ca) -> r_method r' = "POST" -> form_value r' "grant_type" <> "" ->
  registered te' (form_value r' "grant_type") (authorization_code J) -> signs J ->
  form_value r' "code" = form_value r "code" ->
  rrun (sstep false) (sv_store v2) (token_handler J te' r') tr2 res2 s2 ->
  ~ In 200%Z (statuses tr2).
Proof.
  intros J te te' r r' tr res s' h v h2 v2 l2 tr2 res2 s2 HL HB HR HX HI HL2 HS2 HN HB' HA' HM' HG' HR' HJ HCo HX2 HI2.
  apply (C91_code _ _ _ _ _ _ _ _ _ HL2 HS2 HB' HA' HM' HG' HR' HJ HX2) in HI2.
  destruct HI2 as (_ & _ & _ & _ & _ & _ & n & x & _ & HSt & _). rewrite HCo in HSt.
  pose proof (rrun_exec _ _ _ _ _ _ HX) as HE.
  destruct (success_run _ _ _ _ _ HB HE HI) as (h' & c & ta & now & th & rs & l & H1 & H2 & _ & H4 & HEq & _).
  rewrite (registered_fun _ _ _ _ H1 HR) in H4. pose proof H4 as H5. apply (wp_exec _ _ _ _ _ (authorization_code_wp _ _ _ _)) in H5.
  destruct H5 as (_ & _ & sess & info & tok & HC & _ & _ & _ & _ & rest & HD & _).
  assert (HDis : In (Ev (ODisable sess) None) tr).
  { assert (Y : In (Ev (ODisable sess) None) (data_calls th)) by (rewrite HD; apply in_or_app; right; right; left; reflexivity).
    apply filter_In in Y. rewrite HEq. apply in_or_app. right. right. apply in_or_app. left. apply Y. }
  assert (HF : In (Ev (OFindSession (form_value r "code")) (Some sess, None)) tr).
  { assert (Y : In (Ev (OFindSession (form_value r "code")) (Some sess, None)) (data_calls th)) by (rewrite HD; left; reflexivity).
    apply filter_In in Y. rewrite HEq. apply in_or_app. right. right. apply in_or_app. left. apply Y. }
  assert (HCd : as_code sess = form_value r "code").
  { apply in_split in HF. destruct HF as (t1 & t2 & HF). destruct v as [n0 s0]. cbn [sv_store] in HX.
    destruct (rrun_prefix _ _ _ _ _ _ _ _ _ _ HX HF) as (q0 & sm & sm' & HSt1 & HAn).
    pose proof (lives_steps _ _ _ _ _ _ _ HL HSt1) as HLm.
    destruct (C91_codes _ _ _ _ _ HLm HAn) as [_ (id & y & HSy & HO)]. rewrite (so_code _ _ _ HO).
    destruct HSy as (q1 & q & q2 & _ & HGq & _). inversion HGq. assumption. }
  apply in_split in HDis. destruct HDis as (t1 & t2 & ED). rewrite ED, map_app in HSt. cbn [map] in HSt. rewrite <- app_assoc in HSt. cbn [app] in HSt. rewrite app_assoc in HSt.
  apply standing_after in HSt; [|constructor; exact HCd|intros X; inversion X].
  destruct HSt as (b & HIb & HGb). apply in_app_or in HIb. destruct HIb as [HIb|HIb].
  - apply in_map_iff in HIb. destruct HIb as ([o a] & <- & HIb). assert (HIt : In (Ev o a) tr) by (rewrite ED; apply in_or_app; right; right; exact HIb).
    assert (HO : exists i y, o = OCreateSession i y) by (inversion HGb; eauto). destruct HO as (i & y & ->).
    apply in_split in HIt. destruct HIt as (u1 & u2 & EU). destruct (granted_event _ _ _ _ _ _ _ _ _ HE EU eq_refl) as (h'' & c' & now' & th' & x' & t & t' & G1 & _ & G3 & G4).
    rewrite (registered_fun _ _ _ _ G1 HR) in G3. exact (exec_guard _ _ _ _ _ _ _ _ _ (authorization_code_wp _ _ _ _) G3 G4).
  - inversion HGb; subst. eapply HN; eauto.
Qed.
Print Assumptions C91_code_once.

(* A refresh is answered 200 only to the client of an authorization that still stands and covers offline access, for
   one of its tokens that carries the refresh token and is not too old. *)
Theorem C91_refresh_only : forall J te r tr res h v l s', lives h v -> since h l ->
  only_bundled J te -> (forall ca, ~ presented_assertion te r ca) -> r_method r = "POST" -> form_value r "grant_type" <> "" ->
  registered te (form_value r "grant_type") refresh_token ->
  rrun (sstep false) (sv_store v) (token_handler J te r) tr res s' -> In 200%Z (statuses tr) ->
  exists id owner uri, admitted l te r (form_value r "grant_type") id owner uri /\ form_value r "refresh_token" <> "" /\
    exists k old i now, standing (gives_token k) (ends_token k) h old /\ ot_refresh old = form_value r "refresh_token" /\
      In (Ev ONow now) tr /\ (now <= add64 (ot_refresh_expires old) (ot_created old))%Z /\
      standing (gives_info (ot_auth_id old)) (ends_info (ot_auth_id old)) h i /\ ai_client i = id /\ has_word (ai_scope i) "offline_access".
Proof.
  intros J te r tr res h v l s' HL HS HB HA HM HG HR HX HI. pose proof (clients_spec _ _ HL _ HS) as HC.
  destruct (presented_or_not J te r tr res (sv_store v) s' HB HA HX) as [(cid & sec & b & HP)|[HP H0]]; [|destruct (H0 HI)].
  destruct (refresh_only _ _ _ _ _ _ _ _ _ _ HB HR HP HX HI) as (c & old & now & (H1 & H2 & H3) & HF0 & HMF & HN & HT & i & HZ & HCi & HO).
  specialize (HC cid). rewrite H1 in HC. destruct HC as (o & s & u & la & HC & HBh).
  exists cid, o, u. split.
  { exists sec, b, la. split; [exact HP|]. apply HBh in H2. subst s. split; [exact HC|]. apply HBh. exact H3. }
  split; [exact HF0|]. exists (ot_access old), old, i, now. apply (may_find_standing _ _ _ _ HL) in HMF.
  split; [apply HMF|]. split; [apply HMF|]. split; [exact HN|]. split; [exact HT|].
  split; [apply (ia_found _ _ (infos_spec _ _ HL)); exact HZ|]. split; [rewrite HCi; apply HBh|exact HO].
Qed.
Print Assumptions C91_refresh_only.

(* And it is, if that is so of every token that the store may find. *)
Theorem C91_refresh : forall J te r tr res h v l s' id owner uri, lives h v -> since h l ->
  only_bundled J te -> r_method r = "POST" -> form_value r "grant_type" <> "" ->
  registered te (form_value r "grant_type") refresh_token ->
  rrun (sstep false) (sv_store v) (token_handler J te r) tr res s' ->
  admitted l te r (form_value r "grant_type") id owner uri -> form_value r "refresh_token" <> "" ->
  (exists k old, standing (gives_token k) (ends_token k) h old /\ ot_refresh old = form_value r "refresh_token") ->
  (forall k old now, standing (gives_token k) (ends_token k) h old -> ot_refresh old = form_value r "refresh_token" -> In (Ev ONow now) tr ->
     (now <= add64 (ot_refresh_expires old) (ot_created old))%Z /\
     exists i, standing (gives_info (ot_auth_id old)) (ends_info (ot_auth_id old)) h i /\ ai_client i = id /\ has_word (ai_scope i) "offline_access") ->
  In 200%Z (statuses tr).
Proof.
  intros J te r tr res h v l s' id owner uri HL HS HB HM HG HR HX (sec & b & la & HP & HCr & HAl) HF0 (k0 & o0 & HS0 & HE0) HAll.
  pose proof (clients_spec _ _ HL _ HS id) as HC. destruct (sget id (st_clients (sv_store v))) as [c|] eqn:E; [|destruct (HC _ _ _ _ HCr)].
  destruct HC as (o2 & s2 & u2 & la2 & HC & HBh). destruct (client_created_fun _ _ _ _ _ _ _ _ _ _ HC HCr) as (-> & -> & -> & ->).
  apply (refresh_if _ _ _ _ _ _ _ _ _ _ HB HM HG HR HP HX c).
  - split; [exact E|]. split; [apply HBh; reflexivity|apply HBh; exact HAl].
  - exact HF0.
  - exists o0. exists k0. split; [|exact HE0]. apply (ta_found _ _ (tokens_spec _ _ HL)) in HS0. apply (get_in _ seqb_eq) in HS0. exact HS0.
  - intros old now HMF HN. apply (may_find_standing _ _ _ _ HL) in HMF. destruct HMF as [HSt HRf].
    destruct (HAll _ _ _ HSt HRf HN) as (HT & i & HI & HCi & HO). split; [exact HT|]. exists i. split; [apply (ia_found _ _ (infos_spec _ _ HL)); exact HI|].
    split; [rewrite HCi; symmetry; apply HBh|exact HO].
Qed.
Print Assumptions C91_refresh.

(* An assertion as a grant is answered 200 exactly if the client allowed to use it, which presents its secret,
   presents an assertion under that same secret, in force whenever the clock is read, addressed to this server, and about a user
   that was created: the client may name any of them. *)
Theorem C91_jwt : forall J te r tr res h v l s', lives h v -> since h l ->
  only_bundled J te -> (forall ca, ~ presented_assertion te r ca) -> r_method r = "POST" -> form_value r "grant_type" <> "" ->
  registered te (form_value r "grant_type") (jwt_grant J) ->
  rrun (sstep false) (sv_store v) (token_handler J te r) tr res s' ->
  In 200%Z (statuses tr) <->
  exists id sec b owner uri later t exp user uid pass,
    presented te r id sec b /\ client_created l id owner sec uri later /\ In (Allow id (form_value r "grant_type")) later /\
    form_value r "assertion" <> "" /\ jl_parse J (form_value r "assertion") = PToken t /\ jl_verify J (form_value r "assertion") (KBytes sec) = true /\
    (forall now, In (Ev OJwtNow now) tr -> current J now t) /\
    claim_int t "exp" = Some exp /\ jstr "aud" (jt_claims t) = Some "http://example.org/" /\ jstr "sub" (jt_claims t) = Some user /\
    user_created l uid user pass.
Proof.
  intros J te r tr res h v l s' HL HS HB HA HM HG HR HX. pose proof (clients_spec _ _ HL _ HS) as HC. destruct (users_spec _ _ HL _ HS) as [_ HU].
  destruct (presented_or_not J te r tr res (sv_store v) s' HB HA HX) as [(cid & sec & b & HP)|[HP H0]].
  2: { split; [intros HI; destruct (H0 HI)|]. intros (id & se & b & _ & _ & _ & _ & _ & _ & _ & _ & X & _). destruct (HP _ _ _ X). }
  rewrite (jwt_iff _ _ _ _ _ _ _ _ _ _ HB HM HG HR HP HX). split.
  - intros (c & (H1 & H2 & H3 & _) & t & exp & sub & uid & p & A1 & (A2 & k & A8 & A9) & A3 & A4 & A5 & A6 & A7).
    specialize (HC cid). rewrite H1 in HC. destruct HC as (o & s & u & la & HC & HBh). apply HBh in H2. subst s.
    rewrite (bh_assertion _ _ _ _ _ _ HBh) in A8. injection A8 as <-.
    exists cid, sec, b, o, u, la, t, exp, sub, uid, p. apply HU in A7. apply HBh in H3. auto 12.
  - intros (id & sec' & b' & o & u & la & t & exp & sub & uid & p & HP' & HCr & HAl & A1 & A2 & A9 & A3 & A4 & A5 & A6 & A7).
    destruct (presented_fun _ _ _ _ _ _ _ _ HP HP') as (<- & <- & <-).
    specialize (HC cid). destruct (sget cid (st_clients (sv_store v))) as [c|] eqn:E; [|destruct (HC _ _ _ _ HCr)].
    destruct HC as (o2 & s2 & u2 & la2 & HC & HBh). destruct (client_created_fun _ _ _ _ _ _ _ _ _ _ HC HCr) as (-> & -> & -> & ->).
    exists c. split. { split; [exact E|]. split; [apply HBh; reflexivity|]. split; [apply HBh; exact HAl|]. right. apply HBh. }
    exists t, exp, sub, uid, p. split; [exact A1|]. split.
    { split; [exact A2|]. exists (KBytes sec). split; [apply HBh|exact A9]. }
    apply HU in A7. auto 10.
Qed.
Print Assumptions C91_jwt.

(* The bundled server always asks: HandleRequest gives nothing away by itself. *)
Theorem C91_always_asks : forall E pol r s tr res s', rrun (sstep false) s (handle_request E pol r) tr res s' ->
  forall o, In o (ops tr) -> issues o = false.
Proof.
  intros E pol r s tr res s' H o HI. destruct (issues o) eqn:EI; [exfalso|reflexivity].
  apply in_performs in HI. destruct HI as [t1 HP]. pose proof HP as (x & t2 & HT).
  destruct (C33_issued_only_for_recorded_consent _ _ _ _ _ _ _ (rrun_exec _ _ _ _ _ _ H) HP EI) as (c & q & info & _ & _ & _ & (uid & now & (ta & tb & HG) & _) & _).
  assert (X : In (Ev (OFindInfo uid (rq_client q)) (Some info, None)) tr).
  { rewrite HT, HG. apply in_or_app. left. apply in_or_app. right. apply in_or_app. left. right. left. reflexivity. }
  apply (knows_ans s) in X; [discriminate X|]. intros o' a'. exact (rrun_events _ _ _ _ _ _ H o' a').
Qed.
Print Assumptions C91_always_asks.

(* Assertions of a client of the bundled server are message authentication codes under its secret. *)
Theorem C91_assertions : forall A raw c claims evs id owner secret uri later,
  behaves c id owner secret uri later -> good_assertion A raw c claims evs ->
  exists header signed sig alg H block, jws raw header claims signed sig /\ member header "alg" (FStr alg) /\
    hs_alg alg H block /\ rfc2104 H block secret signed sig.
Proof.
  intros A raw c claims evs id owner secret uri later HB (header & signed & sig & alg & kid & k & now & exp & iat & jti & iss & HJ & HM & HK & HC & HG & _).
  rewrite (bh_assertion _ _ _ _ _ _ HB) in HC. injection HC as <-. inversion HG; subst.
  exists header, signed, sig, alg, H, block. auto.
Qed.
Print Assumptions C91_assertions.

Definition ci1 := AuthInfo 0 "c" 0 "0" "" 0 true.
Definition ci2 := AuthInfo 0 "c" 1 "1" "" 0 true.
Definition ct1 := created_token ci1 5 5.
Definition ct2 := created_token ci2 9 9.
Definition cs0 : store := Store 0 [(1%Z, "b", "y"); (0%Z, "a", "x")] [] [] [] [].
Definition cs1 := set_infos cs0 1 (aput Z.eqb 0%Z ci1 []).
Definition cs2 := set_tokens cs1 (aput seqb (ot_access ct1) ct1 []).
Definition cs4 := set_infos cs0 1 (aput Z.eqb 0%Z ci2 []).
Definition cs5 := set_tokens cs4 (aput seqb (ot_access ct2) ct2 []).
Lemma cs5_lives : lives ([NewUser "a" "x"; NewUser "b" "y"; Step (Ev (OCreateInfo 0 "c" "") (Some ci1, None))] ++ Step (Ev (OCreateToken (Some ci1) true) (Some ct1, None)) ::
      ClearAuth :: [Step (Ev (OCreateInfo 1 "c" "") (Some ci2, None))] ++ [Step (Ev (OCreateToken (Some ci2) true) (Some ct2, None))])%list (Server 2 cs5).
Proof.
  pose proof (lv_user _ _ "b" "y" (lv_user _ _ "a" "x" lv_new)) as H. change (create_user "b" "y" (create_user "a" "x" new_server)) with (Server 2 cs0) in H.
  pose proof (lv_step _ _ _ _ _ _ H (ss_create_info_new false cs0 0 "c" "" (fun p X => match X with end)) : lives _ (Server 2 cs1)) as H1.
  pose proof (lv_step _ _ _ _ _ _ H1 (ss_create_token false cs1 ci1 true 5 5) : lives _ (Server 2 cs2)) as H2.
  pose proof (lv_clear_auth _ _ H2 : lives _ (Server 2 cs0)) as H3.
  pose proof (lv_step _ _ _ _ _ _ H3 (ss_create_info_new false cs0 1 "c" "" (fun p X => match X with end)) : lives _ (Server 2 cs4)) as H4.
  exact (lv_step _ _ _ _ _ _ H4 (ss_create_token false cs4 ci2 true 9 9)).
Qed.

(* A token string does not name one grant for ever: after ClearAuthData the numbers start
   again, and the string of an access token of one user is an access token of another. *)
Theorem C91_token_strings_return_refuted :
  exists h1 h2 h3 v i1 i2 t1 t2,
    lives (h1 ++ Step (Ev (OCreateToken (Some i1) true) (Some t1, None)) :: ClearAuth :: h2 ++ [Step (Ev (OCreateToken (Some i2) true) (Some t2, None))])%list v /\
    h1 = (h3 ++ [Step (Ev (OCreateInfo (ai_user i1) (ai_client i1) "") (Some i1, None))])%list /\
    h2 = [Step (Ev (OCreateInfo (ai_user i2) (ai_client i2) "") (Some i2, None))] /\
    ai_user i1 <> ai_user i2 /\ ot_access t1 = ot_access t2 /\
    sstep false (sv_store v) (OFindByAccess (ot_access t1)) (Some t2, None) (sv_store v) /\
    sstep false (sv_store v) (OFindActiveInfo (ot_auth_id t2)) (Some i2, None) (sv_store v).
Proof.
  exists [NewUser "a" "x"; NewUser "b" "y"; Step (Ev (OCreateInfo 0 "c" "") (Some ci1, None))], [Step (Ev (OCreateInfo 1 "c" "") (Some ci2, None))], [NewUser "a" "x"; NewUser "b" "y"].
  exists (Server 2 cs5), ci1, ci2, ct1, ct2. split; [exact cs5_lives|]. split; [reflexivity|]. split; [reflexivity|]. split; [discriminate|]. split; [reflexivity|].
  split; [exact (ss_find_access false cs5 (ot_access ct1))|exact (ss_find_active false cs5 0)].
Qed.
Print Assumptions C91_token_strings_return_refuted.

(** ** A server at work *)
Lemma rsteps_rrun {S} (W : rworld S) s (p : prog unit) tr s' : rsteps W s p tr (Ret tt) s' -> rrun W s p tr (Done tt) s'.
Proof. intros H. remember (Ret tt) as q eqn:E. induction H; [subst; constructor|econstructor; eauto]. Qed.

Definition shop_acts : list act := [NewUser "carol" "x"; NewUser "alice" "hunter2"; NewClient 1 "client1" "secret1" "https://rp.example/cb"; Allow "client1" "password"].
Definition shop : server := allow "client1" "password" (create_client 1 "client1" "secret1" "https://rp.example/cb" (create_user "alice" "hunter2" (create_user "carol" "x" new_server))).
Lemma shop_lives : lives shop_acts shop.
Proof.
  change shop_acts with (((([] ++ [NewUser "carol" "x"]) ++ [NewUser "alice" "hunter2"]) ++ [NewClient 1 "client1" "secret1" "https://rp.example/cb"]) ++ [Allow "client1" "password"])%list.
  repeat constructor.
Qed.
Definition shop_run (r : request) := srun false (answers1 "") 40 (sv_store shop) (token_handler demoJ te0 r).
Lemma shop_runs r : snd (fst (shop_run r)) = Ret tt -> rrun (sstep false) (sv_store shop) (token_handler demoJ te0 r) (fst (fst (shop_run r))) (Done tt) (snd (shop_run r)).
Proof.
  intros E. apply rsteps_rrun. rewrite <- E. apply (srun_rsteps false (answers1 "") 40). unfold shop_run. destruct (srun _ _ _ _ _) as [[t q] s]. reflexivity.
Qed.
Definition wrong_password : request := req [basic1] [] [("grant_type", "password"); ("username", "alice"); ("password", "hunter3")].

Example C91_example :
  lives shop_acts shop /\ since shop_acts shop_acts /\ only_bundled demoJ te0 /\ registered te0 "password" password_grant /\
  (forall ca, ~ presented_assertion te0 password_request ca) /\
  admitted shop_acts te0 password_request "password" "client1" 1 "https://rp.example/cb" /\
  user_created shop_acts 1 "alice" "hunter2" /\
  rrun (sstep false) (sv_store shop) (token_handler demoJ te0 password_request) (fst (fst (shop_run password_request))) (Done tt) (snd (shop_run password_request)) /\
  In 200%Z (statuses (fst (fst (shop_run password_request)))) /\
  rrun (sstep false) (sv_store shop) (token_handler demoJ te0 wrong_password) (fst (fst (shop_run wrong_password))) (Done tt) (snd (shop_run wrong_password)) /\
  statuses (fst (fst (shop_run wrong_password))) = [400%Z].
Proof.
  split; [exact shop_lives|]. split; [split; [unfold shop_acts; simpl; intuition discriminate|auto]|]. split; [apply demo_te_bundled|].
  split; [apply demo_registered|]. split; [intros ca (X & _); discriminate X|].
  split. { exists "secret1", true, [Allow "client1" "password"]. split; [apply pr_header; vm_compute; reflexivity|]. split; [|left; reflexivity].
    exists [NewUser "carol" "x"; NewUser "alice" "hunter2"]. split; [reflexivity|]. intros o s u [X|[]]. discriminate X. }
  split. { exists [NewUser "carol" "x"]. eexists. split; reflexivity. }
  split; [apply shop_runs; vm_compute; reflexivity|]. split; [vm_compute; auto|]. split; [apply shop_runs; vm_compute; reflexivity|]. vm_compute. reflexivity.
Qed.

(** A user agrees, and the client fetches tokens with the code, and then with the refresh token. *)
Definition bar : server := allow "client1" "refresh_token" (allow "client1" "authorization_code" (create_client 1 "client1" "secret1" "https://rp.example/cb" (create_user "alice" "hunter2" new_server))).
Definition bar_scope : string := "openid offline_access".
Definition bar_info : authinfo := AuthInfo 0 "client1" 0 "0" bar_scope 0 true.
Definition bar_session : asession := ASession "https://rp.example/cb" "code1" 600 "" "n1" 1000.
Definition bar_token : oauthtoken := created_token bar_info 1005 1005.
Definition bar1 : store := set_infos (sv_store bar) 1 [(0%Z, bar_info)].
Definition bar2 : store := set_sessions bar1 [("code1", stored_session bar_info bar_session)].
Definition bar3 : store := set_tokens bar2 [(ot_access bar_token, bar_token)].
Definition bar_acts : list act := [NewUser "alice" "hunter2"; NewClient 1 "client1" "secret1" "https://rp.example/cb"; Allow "client1" "authorization_code"; Allow "client1" "refresh_token";
  Step (Ev (OCreateInfo 0 "client1" bar_scope) (Some bar_info, None)); Step (Ev (OCreateSession (Some bar_info) bar_session) None)].
Definition bar_acts3 : list act := (bar_acts ++ [Step (Ev (OCreateToken (Some bar_info) true) (Some bar_token, None))])%list.
Lemma bar_lives2 : lives bar_acts (Server 1 bar2).
Proof.
  assert (H0 : lives ((([] ++ [NewUser "alice" "hunter2"]) ++ [NewClient 1 "client1" "secret1" "https://rp.example/cb"]) ++ [Allow "client1" "authorization_code"] ++ [Allow "client1" "refresh_token"])%list bar).
  { rewrite app_assoc. unfold bar. apply lv_allow, lv_allow, lv_client, lv_user, lv_new. }
  change bar with (Server 1 (sv_store bar)) in H0.
  assert (HN : forall p, In p (st_infos (sv_store bar)) -> same_user_client 0 "client1" p = false) by (intros p []).
  pose proof (lv_step _ _ _ _ _ _ H0 (ss_create_info_new false (sv_store bar) 0 "client1" bar_scope HN)) as H1.
  pose proof (lv_step _ _ _ _ _ _ H1 (ss_create_session false _ bar_info bar_session)) as H2. exact H2.
Qed.
Lemma bar_lives3 : lives bar_acts3 (Server 1 bar3).
Proof. exact (lv_step _ _ _ _ _ _ bar_lives2 (ss_create_token false bar2 bar_info true 1005 1005)). Qed.
Definition bar_run (s : store) (r : request) := srun false (answers1 "") 40 s (token_handler demoJ te0 r).
Lemma bar_runs s r : snd (fst (bar_run s r)) = Ret tt -> rrun (sstep false) s (token_handler demoJ te0 r) (fst (fst (bar_run s r))) (Done tt) (snd (bar_run s r)).
Proof.
  intros E. apply rsteps_rrun. rewrite <- E. apply (srun_rsteps false (answers1 "") 40). unfold bar_run. destruct (srun _ _ _ _ _) as [[t q] s']. reflexivity.
Qed.
Definition bar_refresh (t : string) : request := req [basic1] [] [("grant_type", "refresh_token"); ("refresh_token", t)].
Definition other_uri : request := req [basic1] [] [("grant_type", "authorization_code"); ("code", "code1"); ("redirect_uri", "https://rp.example/")].

Example C91_code_example :
  lives bar_acts (Server 1 bar2) /\ since bar_acts bar_acts /\ signs demoJ /\ registered te0 "authorization_code" (authorization_code demoJ) /\
  (forall ca, ~ presented_assertion te0 code_request ca) /\
  admitted bar_acts te0 code_request "authorization_code" "client1" 1 "https://rp.example/cb" /\
  standing (gives_code "code1") (ends_code "code1") bar_acts (0%Z, bar_session) /\ standing (gives_info 0) (ends_info 0) bar_acts bar_info /\
  rrun (sstep false) bar2 (token_handler demoJ te0 code_request) (fst (fst (bar_run bar2 code_request))) (Done tt) (snd (bar_run bar2 code_request)) /\
  In 200%Z (statuses (fst (fst (bar_run bar2 code_request)))) /\
  rrun (sstep false) bar2 (token_handler demoJ te0 other_uri) (fst (fst (bar_run bar2 other_uri))) (Done tt) (snd (bar_run bar2 other_uri)) /\
  statuses (fst (fst (bar_run bar2 other_uri))) = [400%Z].
Proof.
  split; [exact bar_lives2|]. split; [split; [unfold bar_acts; simpl; intuition discriminate|auto]|]. split; [split; [reflexivity|intros cs; eexists; reflexivity]|].
  split; [apply demo_registered|]. split; [intros ca (X & _); discriminate X|].
  split. { exists "secret1", true. eexists. split; [apply pr_header; vm_compute; reflexivity|]. split.
    - exists [NewUser "alice" "hunter2"]. split; [reflexivity|]. simpl. intuition discriminate.
    - left. reflexivity. }
  split. { eexists [_; _; _; _; _], _, []. split; [reflexivity|]. split; [constructor; reflexivity|]. intros c []. }
  split. { eexists [_; _; _; _], _, [_]. split; [reflexivity|]. split; [constructor; reflexivity|]. intros c [<-|[]] X. inversion X. }
  split; [apply bar_runs; vm_compute; reflexivity|]. split; [vm_compute; auto|]. split; [apply bar_runs; vm_compute; reflexivity|]. vm_compute. reflexivity.
Qed.

Example C91_refresh_example :
  lives bar_acts3 (Server 1 bar3) /\ since bar_acts3 bar_acts3 /\ registered te0 "refresh_token" refresh_token /\
  admitted bar_acts3 te0 (bar_refresh "REFRESH_TOKEN_0") "refresh_token" "client1" 1 "https://rp.example/cb" /\
  standing (gives_token "ACCESS_TOKEN_0") (ends_token "ACCESS_TOKEN_0") bar_acts3 bar_token /\ ot_refresh bar_token = "REFRESH_TOKEN_0" /\
  has_word bar_scope "offline_access" /\
  rrun (sstep false) bar3 (token_handler demoJ te0 (bar_refresh "REFRESH_TOKEN_0")) (fst (fst (bar_run bar3 (bar_refresh "REFRESH_TOKEN_0")))) (Done tt) (snd (bar_run bar3 (bar_refresh "REFRESH_TOKEN_0"))) /\
  In 200%Z (statuses (fst (fst (bar_run bar3 (bar_refresh "REFRESH_TOKEN_0"))))) /\
  statuses (fst (fst (bar_run bar3 (bar_refresh "REFRESH_TOKEN_1")))) = [400%Z].
Proof.
  split; [exact bar_lives3|]. split; [split; [unfold bar_acts3; simpl; intuition discriminate|auto]|].
  split; [apply demo_registered|].
  split. { exists "secret1", true. eexists. split; [apply pr_header; vm_compute; reflexivity|]. split.
    - exists [NewUser "alice" "hunter2"]. split; [reflexivity|]. simpl. intuition discriminate.
    - right. left. reflexivity. }
  split. { eexists [_; _; _; _; _; _], _, []. split; [reflexivity|]. split; [constructor; vm_compute; reflexivity|]. intros c []. }
  split; [vm_compute; reflexivity|]. split; [apply include_word; vm_compute; reflexivity|].
  split; [apply bar_runs; vm_compute; reflexivity|]. split; [vm_compute; auto|]. vm_compute. reflexivity.
Qed.

Example C91_once_example :
  let tr := fst (fst (bar_run bar2 code_request)) in let s1 := snd (bar_run bar2 code_request) in
  lives (bar_acts ++ map Step tr ++ []) (Server 1 s1) /\ since (bar_acts ++ map Step tr ++ []) (bar_acts ++ map Step tr ++ []) /\
  rrun (sstep false) s1 (token_handler demoJ te0 code_request) (fst (fst (bar_run s1 code_request))) (Done tt) (snd (bar_run s1 code_request)) /\
  statuses (fst (fst (bar_run s1 code_request))) = [400%Z].
Proof.
  cbv zeta. split; [rewrite app_nil_r; eapply lives_run; [exact bar_lives2|apply (bar_runs bar2 code_request); vm_compute; reflexivity]|].
  split. { split; [|auto]. intros X. apply in_app_or in X. destruct X as [X|X]; [simpl in X; intuition discriminate|]. rewrite app_nil_r in X.
    apply in_map_iff in X. destruct X as (e & X & _). discriminate X. }
  split; [apply bar_runs; vm_compute; reflexivity|vm_compute; reflexivity].
Qed.

(* The client1 of the shop signs for alice; the library of the example accepts "h.c.s" under any key, as of client1's own server. *)
Definition alice_assertion : jtoken :=
  JToken [("alg", JStr "HS256")] [("sub", JStr "alice"); ("aud", JStr "http://example.org/"); ("exp", JFloat 2000)].
Definition aliceJ : jwtlib :=
  JwtLib (fun raw => if raw =s? "a.b.c" then PToken alice_assertion else PMalformed) (fun now _ => CFlags (2000 <? now)%Z false false)
    (fun raw k => match k with KBytes s => s =s? "secret1" | _ => false end) (fun _ => true) (fun _ _ _ _ => Some "signed").
Definition alice_te : token_endpoint := TokenEndpoint "goidc" [(TypeJWT, jwt_grant aliceJ)] None FromHeader false.
Definition office_acts : list act := [NewUser "alice" "hunter2"; NewClient 1 "client1" "secret1" "https://rp.example/cb"; Allow "client1" TypeJWT].
Definition office : server := allow "client1" TypeJWT (create_client 1 "client1" "secret1" "https://rp.example/cb" (create_user "alice" "hunter2" new_server)).
Definition office_run (r : request) := srun false (answers1 "") 40 (sv_store office) (token_handler aliceJ alice_te r).
Definition alice_request (raw : string) : request := req [basic1] [] [("grant_type", TypeJWT); ("assertion", raw)].
Lemma office_runs r : snd (fst (office_run r)) = Ret tt -> rrun (sstep false) (sv_store office) (token_handler aliceJ alice_te r) (fst (fst (office_run r))) (Done tt) (snd (office_run r)).
Proof.
  intros E. apply rsteps_rrun. rewrite <- E. apply (srun_rsteps false (answers1 "") 40). unfold office_run. destruct (srun _ _ _ _ _) as [[t q] s']. reflexivity.
Qed.
Example C91_jwt_example :
  lives office_acts office /\ since office_acts office_acts /\ only_bundled aliceJ alice_te /\ registered alice_te TypeJWT (jwt_grant aliceJ) /\
  rrun (sstep false) (sv_store office) (token_handler aliceJ alice_te (alice_request "a.b.c")) (fst (fst (office_run (alice_request "a.b.c")))) (Done tt) (snd (office_run (alice_request "a.b.c"))) /\
  In 200%Z (statuses (fst (fst (office_run (alice_request "a.b.c"))))) /\
  statuses (fst (fst (office_run (alice_request "x.y.z")))) = [400%Z].
Proof.
  split. { change office_acts with ((([] ++ [NewUser "alice" "hunter2"]) ++ [NewClient 1 "client1" "secret1" "https://rp.example/cb"]) ++ [Allow "client1" TypeJWT])%list. unfold office. apply lv_allow, lv_client, lv_user, lv_new. }
  split; [split; [unfold office_acts; simpl; intuition discriminate|auto]|].
  split. { intros g h [E|[]]. injection E as <- <-. constructor. }
  split. { apply find_handler_some. vm_compute. reflexivity. }
  split; [apply office_runs; vm_compute; reflexivity|]. split; [vm_compute; auto|vm_compute; reflexivity].
Qed.
