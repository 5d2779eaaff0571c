(** * Proofs about the resource protector. *)
From Coq Require Import Lia.
From Verif Require Import WpTac Utils OAuthError Grants TokenEndpoint ResourceProtector TokenSpec ResourceSpec
  UtilsFacts GrantFacts TokenFacts TokenProofs TokenMore.

Lemma find_token_spec rp r :
  (find_token rp r <> "" -> token_from rp r (find_token rp r)) /\
  (forall t, token_from rp r t -> find_token rp r = t).
Proof.
  unfold find_token. set (hd := header_get r "Authorization").
  destruct (hd =s? "") eqn:E0; sdestruct.
  { split; [congruence|]. intros t HT. exfalso.
    assert (HB : exists t, bearer_header r t) by (destruct HT; eauto).
    destruct HB as (t' & s & rest & HW & _). fold hd in HW. rewrite E0 in HW.
    apply words_split in HW. discriminate. }
  assert (HB : forall t, bearer_header r t <->
    exists s rest, split_on space hd = s :: t :: rest /\ to_lower s = "bearer").
  { intros t. unfold bearer_header. fold hd. split; intros (s & rest & H1 & H2); exists s, rest;
      (split; [apply words_split; exact H1|exact H2]). }
  destruct (split_on space hd) as [|s [|t rest]].
  - split; [congruence|]. intros t HT. exfalso.
    destruct HT as [t H _|t H _ _ _|t H _ _ _]; apply HB in H; destruct H as (? & ? & H & _); discriminate.
  - split; [congruence|]. intros t HT. exfalso.
    destruct HT as [t H _|t H _ _ _|t H _ _ _]; apply HB in H; destruct H as (? & ? & H & _); discriminate.
  - destruct (to_lower s =s? "bearer") eqn:E1; sdestruct; cbn [negb].
    2: { split; [congruence|]. intros u HT. exfalso.
         destruct HT as [u H _|u H _ _ _|u H _ _ _]; apply HB in H;
           destruct H as (? & ? & H & H'); injection H as ? ? ?; subst; congruence. }
    destruct (t =s? "") eqn:E2; sdestruct; cbn [negb].
    + subst t.
      assert (HE : bearer_header r "") by (apply HB; eauto).
      assert (HU : forall u, bearer_header r u -> u = "").
      { intros u H. apply HB in H. destruct H as (? & ? & H & _). injection H; auto. }
      split.
      * intros H. destruct (rp_accept rp) eqn:EA; try congruence.
        -- eapply tf_body; eauto.
        -- eapply tf_form; eauto.
      * intros u HT. destruct HT as [u H1 H2|u H1 H2 H3 _|u H1 H2 H3 _].
        -- apply HU in H1. congruence.
        -- rewrite H2. exact H3.
        -- rewrite H2. exact H3.
    + split.
      * intros _. apply tf_header; auto. apply HB. eauto.
      * intros u HT. destruct HT as [u H1 H2|u H1 H2 H3 _|u H1 H2 H3 _];
          apply HB in H1; destruct H1 as (? & ? & H & _); injection H as ? ? ?; subst; congruence.
Qed.

Lemma token_from_some rp r : find_token rp r <> "" -> token_from rp r (find_token rp r).
Proof. apply find_token_spec. Qed.
Lemma token_from_eq rp r t : token_from rp r t -> find_token rp r = t.
Proof. apply find_token_spec. Qed.
Lemma token_from_nonempty rp r t : token_from rp r t -> t <> "".
Proof. intros []; auto. Qed.
Lemma token_from_none rp r : find_token rp r = "" -> forall t, ~ token_from rp r t.
Proof. intros H t HT. pose proof (token_from_eq _ _ _ HT). apply token_from_nonempty in HT. congruence. Qed.

(** ** Headers *)

Lemma filter_filter {A} (f g : A -> bool) l :
  filter f (filter g l) = filter (fun x => f x && g x)%bool l.
Proof.
  induction l as [|x l IH]; simpl; auto. destruct (g x) eqn:E; simpl; rewrite ?E, IH.
  - destruct (f x); reflexivity.
  - rewrite andb_false_r. reflexivity.
Qed.

Lemma header_set_filter r k v k' :
  filter (fun p => fst p =s? k') (r_headers (header_set r k v)) =
  if canon k =s? k' then [(canon k, v)] else filter (fun p => fst p =s? k') (r_headers r).
Proof.
  unfold header_set. simpl. rewrite filter_filter. destruct (canon k =s? k') eqn:E; sdestruct.
  - subst. f_equal. induction (r_headers r) as [|p l IH]; simpl; auto.
    destruct (fst p =s? canon k); simpl; auto.
  - induction (r_headers r) as [|p l IH]; simpl; auto.
    destruct (fst p =s? k') eqn:E2; simpl; auto. sdestruct. subst k'.
    destruct (fst p =s? canon k) eqn:E3; sdestruct; [congruence|]. simpl. rewrite IH. reflexivity.
Qed.

Lemma kv_get_filter k l :
  kv_get k l = match filter (fun p => fst p =s? k) l with [] => None | p :: _ => Some (snd p) end.
Proof.
  induction l as [|[k' v] l IH]; simpl; auto. rewrite seqb_sym.
  destruct (k' =s? k); simpl; auto.
Qed.

Lemma only_header_get r k v : canon k = k -> only_header r k v -> header_get r k = v.
Proof.
  intros HC H. unfold header_get. rewrite HC, kv_get_filter. unfold only_header in H. rewrite H. reflexivity.
Qed.

Definition identify (r : request) (info : authinfo) : request :=
  header_set (header_set (header_set r "X-OAUTH-USER-ID" (itoa (ai_user info)))
                         "X-OAUTH-CLIENT-ID" (ai_client info))
             "X-OAUTH-SCOPE" (ai_scope info).

Lemma identify_spec r info : identified r (identify r info) info.
Proof.
  unfold identified, only_header, identify. repeat split; rewrite ?header_set_filter; auto.
  intros k Hk. rewrite !header_set_filter.
  destruct (canon "X-OAUTH-SCOPE" =s? k) eqn:E1; sdestruct; [subst; exfalso; apply Hk; simpl; auto|].
  destruct (canon "X-OAUTH-CLIENT-ID" =s? k) eqn:E2; sdestruct; [subst; exfalso; apply Hk; simpl; auto|].
  destruct (canon "X-OAUTH-USER-ID" =s? k) eqn:E3; sdestruct; [subst; exfalso; apply Hk; simpl; auto|].
  reflexivity.
Qed.

(** ** Validate *)

Definition validate_post (rp : protector) (r : request) : post (bool * request) := fun tr x =>
  match x with
  | Done (true, r') => exists t tok now info,
      token_from rp r t /\ access_live tok now /\ tr = live_calls t tok now info /\ r' = identify r info
  | Done (false, r') => r' = r /\ resource_refusal rp r tr
  | Panicked => exists t tok now,
      token_from rp r t /\ access_live tok now /\
      tr = [Ev (OFindByAccess t) (Some tok, None); Ev ONow now;
            Ev (OFindActiveInfo (ot_auth_id tok)) (None, None)]
  end.

Ltac challenge_tac := eexists; split; [apply with_uri_spec|reflexivity].

Lemma validate_wp rp r : wp gtrue (validate_post rp r) [] (validate rp r).
Proof.
  unfold validate, unauthorize, dcheck. wp_go; hist; unfold validate_post;
    try match goal with H : find_token rp r <> "" |- _ => pose proof (token_from_some rp r H) end.
  all: try (split; [reflexivity|]).
  all: try (eapply rr_none; [apply token_from_none; assumption|reflexivity|challenge_tac]; fail).
  all: try (eapply rr_unknown; [eassumption|reflexivity|challenge_tac]; fail).
  all: try (eapply rr_broken; [left; reflexivity|reflexivity|reflexivity]; fail).
  all: try (eapply rr_broken; [right; right; left; reflexivity|reflexivity|reflexivity]; fail).
  all: try (eapply rr_inactive;
            [eassumption|reflexivity|unfold access_live; apply Z.ltb_ge; assumption|challenge_tac]; fail).
  - eapply rr_expired with (now := x0) (now2 := x1); [eassumption|reflexivity| |challenge_tac].
    unfold access_live. apply Z.ltb_lt in Heqb0. apply Z.lt_nge. exact Heqb0.
  - do 4 eexists. split; [eassumption|]. split; [|split; reflexivity].
    unfold access_live. apply Z.ltb_ge. exact Heqb0.
  - do 3 eexists. split; [eassumption|]. split; [|reflexivity].
    unfold access_live. apply Z.ltb_ge. exact Heqb0.
Qed.

Lemma validate_complete rp r t tok now info :
  token_from rp r t -> access_live tok now ->
  exec (validate rp r) (live_calls t tok now info) (Done (true, identify r info)).
Proof.
  intros HT HL. pose proof (token_from_eq _ _ _ HT) as HE. pose proof (token_from_nonempty _ _ _ HT) as HN.
  unfold validate. rewrite HE. destruct (t =s? "") eqn:E; sdestruct; [congruence|].
  unfold call. cbn [bind]. constructor. cbn [dcheck]. cbn [bind]. constructor.
  assert (EL : (add64 (ot_refreshed tok) (ot_access_expires tok) <? now)%Z = false)
    by (apply Z.ltb_ge; exact HL).
  rewrite EL. cbn [bind]. constructor. cbn [bind]. constructor.
Qed.

Lemma live_calls_exact rp r tr r' :
  exec (validate rp r) tr (Done (true, r')) <->
  exists t tok now info,
    token_from rp r t /\ access_live tok now /\ tr = live_calls t tok now info /\ r' = identify r info.
Proof.
  split.
  - intros H. exact (wp_exec _ _ _ _ _ (validate_wp rp r) H).
  - intros (t & tok & now & info & H1 & H2 & -> & ->). apply validate_complete; auto.
Qed.

Lemma sm_get_in p m : NoDup (map fst m) ->
  match sm_get p m with
  | Some l => required m p l /\ forall l', required m p l' -> l' = l
  | None => forall l, ~ required m p l
  end.
Proof.
  unfold required. induction m as [|[q l] m IH]; intros HN; simpl.
  - auto.
  - inversion HN as [|? ? HN1 HN2]; subst. specialize (IH HN2).
    destruct (p =s? q) eqn:E; sdestruct.
    + subst q. split; auto. intros l' [H|H]; [congruence|].
      exfalso. apply HN1. apply in_map_iff. exists (p, l'). auto.
    + destruct (sm_get p m).
      * destruct IH as [H1 H2]. split; auto. intros l' [H|H]; [congruence|auto].
      * intros l' [H|H]; [congruence|]. exact (IH _ H).
Qed.

Lemma has_word_iff s l w : words_of s l -> (has_word s w <-> In w l).
Proof.
  intros H. split.
  - intros (l' & H1 & H2). apply words_split in H. apply words_split in H1. congruence.
  - intros H1. exists l. auto.
Qed.

Definition scopes_post (rp : protector) (m : scope_map) (r : request) : post (bool * request) := fun tr x =>
  match x with
  | Done (true, r') => exists t tok now info,
      token_from rp r t /\ access_live tok now /\ tr = live_calls t tok now info /\ r' = identify r info /\
      forall scopes s, required m (r_path r) scopes -> In s scopes -> has_word (ai_scope info) s
  | Done (false, r') => (r' = r /\ resource_refusal rp r tr) \/ exists s, scope_refusal rp m r tr s
  | Panicked => exists t tok now,
      token_from rp r t /\ access_live tok now /\
      tr = [Ev (OFindByAccess t) (Some tok, None); Ev ONow now;
            Ev (OFindActiveInfo (ot_auth_id tok)) (None, None)]
  end.

Lemma identify_scope r info : header_get (identify r info) "X-OAUTH-SCOPE" = ai_scope info.
Proof.
  unfold header_get. change (canon "X-OAUTH-SCOPE") with "X-Oauth-Scope". rewrite kv_get_filter.
  unfold identify. rewrite header_set_filter. reflexivity.
Qed.

Lemma scopes_wp rp r m : NoDup (map fst m) ->
  wp gtrue (scopes_post rp m r) [] (validate_with_scopes rp r m).
Proof.
  intros HN. unfold validate_with_scopes. apply wp_bind.
  eapply wp_post; [|apply validate_wp]. intros h x Hx. unfold validate_post in Hx.
  destruct x as [[[] r']|].
  - destruct Hx as (t & tok & now & info & HT & HL & -> & ->). cbn [negb].
    change (r_path (identify r info)) with (r_path r). rewrite identify_scope.
    pose proof (sm_get_in (r_path r) m HN) as HS.
    destruct (sm_get (r_path r) m) as [scopes|].
    2: { apply wp_ret. do 4 eexists. repeat split; eauto. intros sc s H. destruct (HS _ H). }
    destruct HS as [HR HU]. destruct (words_exist_unique (ai_scope info)) as (l & HW & _).
    destruct (scope_include_all_spec _ _ scopes HW) as [H1 H2].
    destruct (scope_include_all (ai_scope info) scopes) as [b miss] eqn:EB.
    destruct b.
    + apply wp_ret. do 4 eexists. repeat split; eauto. intros sc s H HI.
      apply HU in H. subst. destruct (proj1 (H1 miss) eq_refl) as [_ HB].
      apply (has_word_iff _ _ _ HW). auto.
    + destruct (proj1 (H2 miss) eq_refl) as (pre & post_ & HB1 & HB2 & HB3). subst scopes.
      unfold unauthorize. wp_go; hist. right. exists miss.
      exists t, tok, now, info, pre, post_.
      split; [auto|]. split; [auto|]. split; [auto|]. split; [|split; [|split]].
      * intros w HW1. apply (has_word_iff _ _ _ HW). auto.
      * intros HX. apply (has_word_iff _ _ _ HW) in HX. auto.
      * reflexivity.
      * challenge_tac.
  - destruct Hx as [-> Hx]. cbn [negb]. apply wp_ret. left. auto.
  - exact Hx.
Qed.

Lemma accepted_identified rp r tr r' :
  exec (validate rp r) tr (Done (true, r')) ->
  exists t tok now info,
    token_from rp r t /\ access_live tok now /\ tr = live_calls t tok now info /\
    identified r r' info /\ http_ops tr = [].
Proof.
  intros H. apply live_calls_exact in H. destruct H as (t & tok & now & info & H1 & H2 & -> & ->).
  exists t, tok, now, info. repeat (split; [auto; apply identify_spec|]). reflexivity.
Qed.

Lemma identified_get r r' info k : identified r r' info ->
  (canon k = "X-Oauth-User-Id" -> header_get r' k = itoa (ai_user info)) /\
  (canon k = "X-Oauth-Client-Id" -> header_get r' k = ai_client info) /\
  (canon k = "X-Oauth-Scope" -> header_get r' k = ai_scope info) /\
  (~ In (canon k) ["X-Oauth-User-Id"; "X-Oauth-Client-Id"; "X-Oauth-Scope"] ->
   header_get r' k = header_get r k).
Proof.
  intros (_ & _ & _ & _ & _ & H1 & H2 & H3 & H4). unfold header_get.
  repeat split; intros HC; rewrite ?HC, !kv_get_filter.
  - rewrite H1; reflexivity.
  - rewrite H2; reflexivity.
  - rewrite H3; reflexivity.
  - rewrite H4 by auto. reflexivity.
Qed.

Lemma refused rp r tr r' :
  exec (validate rp r) tr (Done (false, r')) -> r' = r /\ resource_refusal rp r tr.
Proof. intros H. exact (wp_exec _ _ _ _ _ (validate_wp rp r) H). Qed.


Lemma validate_reads rp r tr x : exec (validate rp r) tr x -> only_reads tr.
Proof.
  intros H ev HI. apply in_split in HI. destruct HI as (t1 & t2 & ->).
  refine (wp_guard (fun _ o => is_update o = false) (fun _ _ => True) _ _ _ _ _ _ _ H eq_refl).
  clear H. unfold validate, unauthorize, dcheck. repeat (wp_step; auto).
Qed.

Lemma scopes_reads rp r m tr x : exec (validate_with_scopes rp r m) tr x -> only_reads tr.
Proof.
  intros H. unfold validate_with_scopes in H. apply exec_bind in H.
  destruct H as [(t1 & t2 & [ok r1] & H1 & H2 & ->)|[H1 ->]].
  2: { eapply validate_reads; eauto. }
  intros ev HI. apply in_app_or in HI. destruct HI as [HI|HI].
  { exact (validate_reads _ _ _ _ H1 _ HI). }
  apply in_split in HI. destruct HI as (t3 & t4 & ->).
  refine (wp_guard (fun _ o => is_update o = false) (fun _ _ => True) _ _ _ _ _ _ _ H2 eq_refl).
  unfold unauthorize. repeat (wp_step; auto).
Qed.

Lemma challenge_one rp e o : challenge rp e o ->
  exists v, o = [OSetHeader "WWW-Authenticate" v; OStatus (oerr_status (oe_type e))] /\
    exists rest, v = ("Bearer " ++ rest)%string.
Proof.
  intros (e' & _ & ->). eexists. split; [reflexivity|]. unfold oerr_header. eexists.
  cbn [String.append]. reflexivity.
Qed.

Lemma refusal_once rp r tr : resource_refusal rp r tr -> refused_once tr.
Proof.
  intros H. destruct H; try (left; assumption); right;
  match goal with H : challenge _ _ _ |- _ => apply challenge_one in H; destruct H as (v & -> & H) end;
  do 2 eexists; (split; [reflexivity|]); (split; [simpl; auto|assumption]).
Qed.

Lemma scope_refusal_once rp m r tr s : scope_refusal rp m r tr s ->
  exists v, http_ops tr = [OSetHeader "WWW-Authenticate" v; OStatus 403].
Proof.
  intros (? & ? & ? & ? & ? & ? & _ & _ & _ & _ & _ & _ & H). apply challenge_one in H.
  destruct H as (v & H & _). eauto.
Qed.

Lemma refused_scopes_once rp r m tr r' : NoDup (map fst m) ->
  exec (validate_with_scopes rp r m) tr (Done (false, r')) -> refused_once tr.
Proof.
  intros HN H. pose proof (wp_exec _ _ _ _ _ (scopes_wp rp r m HN) H) as HP. simpl in HP.
  destruct HP as [[_ HP]|[s (? & ? & ? & ? & ? & ? & _ & _ & _ & _ & _ & _ & HP)]].
  - eapply refusal_once; eauto.
  - right. apply challenge_one in HP. destruct HP as (v & -> & HP).
    do 2 eexists. split; [reflexivity|]. split; [simpl; auto|assumption].
Qed.

(** ** Expiry *)
Lemma add64_fits a b : (- two63 <= a + b < two63)%Z -> add64 a b = (a + b)%Z.
Proof.
  unfold add64, wrap64, two63, two64. intros H. rewrite Z.mod_small; lia.
Qed.
Lemma add64_over a b : (two63 <= a + b < two63 + two64)%Z -> add64 a b = (a + b - two64)%Z.
Proof.
  unfold add64, wrap64. intros H.
  replace (a + b + two63)%Z with ((a + b + two63 - two64) + 1 * two64)%Z by lia.
  rewrite Z_mod_plus_full. rewrite Z.mod_small; unfold two63, two64 in *; lia.
Qed.
Lemma expiry_exact a b now :
  (0 <= a < two63)%Z -> (0 <= b < two63)%Z -> (0 <= now)%Z ->
  ((now <= add64 a b)%Z <-> (now <= a + b /\ a + b < two63)%Z).
Proof.
  intros Ha Hb Hn. destruct (Z_lt_ge_dec (a + b) two63) as [H|H].
  - rewrite add64_fits; [split; lia|]. unfold two63 in *. lia.
  - rewrite add64_over by (unfold two63, two64 in *; lia). unfold two63, two64 in *. lia.
Qed.

Lemma lookup_presented rp r tr res t a :
  exec (validate rp r) tr res -> In (Ev (OFindByAccess t) a) tr ->
  token_from rp r t /\ (rp_accept rp = FromHeader -> bearer_header r t).
Proof.
  intros H HI. assert (HT : token_from rp r t).
  { apply in_split in HI. destruct HI as (t1 & t2 & ->).
    refine (wp_guard (fun _ o => match o with OFindByAccess t => token_from rp r t | _ => True end)
      (fun _ _ => True) _ _ _ _ _ _ _ H eq_refl).
    clear H. unfold validate, unauthorize, dcheck. repeat (wp_step; sdestruct; auto).
    apply token_from_some. assumption. }
  split; [exact HT|]. intros HA. destruct HT; congruence.
Qed.

Lemma no_header_refused rp r tr res :
  header_get r "Authorization" = "" -> exec (validate rp r) tr res ->
  res = Done (false, r) /\ data_calls tr = [] /\ In 400%Z (statuses tr).
Proof.
  intros H0 H. by_wp H. unfold validate, find_token. rewrite H0. unfold unauthorize. simpl.
  repeat split; simpl; auto.
Qed.

Lemma panics_exactly rp r tr :
  exec (validate rp r) tr Panicked <->
  exists t tok now,
    token_from rp r t /\ access_live tok now /\
    tr = [Ev (OFindByAccess t) (Some tok, None); Ev ONow now;
          Ev (OFindActiveInfo (ot_auth_id tok)) (None, None)].
Proof.
  split.
  - intros H. exact (wp_exec _ _ _ _ _ (validate_wp rp r) H).
  - intros (t & tok & now & HT & HL & ->).
    pose proof (token_from_eq _ _ _ HT) as HE. pose proof (token_from_nonempty _ _ _ HT) as HN.
    unfold validate. rewrite HE. destruct (t =s? "") eqn:E; sdestruct; [congruence|].
    unfold call. cbn [bind]. constructor. cbn [dcheck]. cbn [bind]. constructor.
    assert (EL : (add64 (ot_refreshed tok) (ot_access_expires tok) <? now)%Z = false)
      by (apply Z.ltb_ge; exact HL).
    rewrite EL. cbn [bind]. constructor. cbn [bind]. constructor.
Qed.

Definition found_access (e : event) : option oauthtoken :=
  match e with
  | Ev o a => (match o as o0 return ans o0 -> option oauthtoken with
               | OFindByAccess _ => fun x => fst x
               | _ => fun _ => None
               end) a
  end.
Definition read_now (e : event) : option Z :=
  match e with
  | Ev o a => (match o as o0 return ans o0 -> option Z with
               | ONow => fun x => Some x
               | _ => fun _ => None
               end) a
  end.

Lemma access_expiry rp r t tok now info :
  token_from rp r t ->
  (0 <= ot_refreshed tok < two63)%Z -> (0 <= ot_access_expires tok < two63)%Z -> (0 <= now)%Z ->
  ((exists r', exec (validate rp r) (live_calls t tok now info) (Done (true, r'))) <->
   (now <= ot_refreshed tok + ot_access_expires tok /\
    ot_refreshed tok + ot_access_expires tok < two63)%Z).
Proof.
  intros HT H1 H2 H3. rewrite <- (expiry_exact _ _ _ H1 H2 H3). split.
  - intros (r' & H). apply live_calls_exact in H.
    destruct H as (t' & tok' & now' & info' & _ & HL & HE & _).
    pose proof (f_equal (map found_access) HE) as HE1. pose proof (f_equal (map read_now) HE) as HE2.
    cbn in HE1, HE2. injection HE1 as <-. injection HE2 as <-. exact HL.
  - intros HL. eexists. apply validate_complete; auto.
Qed.

Lemma refresh_expiry r c now old info tok :
  form_value r "refresh_token" <> "" -> ai_client info = c_id c -> has_word (ai_scope info) "offline_access" ->
  (0 <= ot_created old < two63)%Z -> (0 <= ot_refresh_expires old < two63)%Z -> (0 <= now)%Z ->
  ((exists rs, exec (refresh_token r c now)
      (refresh_found r old info ++ [Ev (ORefresh info old) (Some tok, None)])%list (Done (inl rs))) <->
   (now <= ot_created old + ot_refresh_expires old /\ ot_created old + ot_refresh_expires old < two63)%Z).
Proof.
  intros H1 H2 H3 H4 H5 H6.
  rewrite (Z.add_comm (ot_created old)).
  rewrite <- (expiry_exact _ _ _ H5 H4 H6). split.
  - intros (rs & H).
    assert (HG : refresh_guard r c now (refresh_found r old info) (ORefresh info old)).
    { exact (wp_guard _ _ _ _ _ _ _ _ (refresh_token_wp r c now) H eq_refl). }
    destruct HG as [(_ & HG & _) _]. exact HG.
  - intros HL. eexists. apply TokenMore.refresh_complete. repeat split; auto.
Qed.

Lemma scopes_complete rp r m t tok now info : NoDup (map fst m) ->
  token_from rp r t -> access_live tok now ->
  (forall scopes s, required m (r_path r) scopes -> In s scopes -> has_word (ai_scope info) s) ->
  exec (validate_with_scopes rp r m) (live_calls t tok now info) (Done (true, identify r info)).
Proof.
  intros HN HT HL HS. unfold validate_with_scopes. apply exec_bind. left.
  exists (live_calls t tok now info), [], (true, identify r info).
  split; [apply validate_complete; auto|]. split; [|rewrite app_nil_r; reflexivity].
  cbn [negb]. change (r_path (identify r info)) with (r_path r). rewrite identify_scope.
  pose proof (sm_get_in (r_path r) m HN) as HG.
  destruct (sm_get (r_path r) m) as [scopes|]; [|constructor].
  destruct HG as [HR _]. destruct (words_exist_unique (ai_scope info)) as (l & HW & _).
  destruct (scope_include_all_spec _ _ scopes HW) as [H1 _].
  rewrite (proj2 (H1 "")); [constructor|]. split; [reflexivity|].
  intros x Hx. apply (has_word_iff _ _ _ HW). eauto.
Qed.
