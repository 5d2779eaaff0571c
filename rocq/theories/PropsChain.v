(** * All flows, from end to end, and renewals without end (C96). *)
From Coq Require Import Lia Permutation.
From Verif Require GoStr JsonRead PropsHttp.
From Verif Require Import Core World Spec TokenSpec Grants TokenEndpoint AuthzResponse AuthzEndpoint AuthzSpec AuthzProofs AuthzFacts ResourceProtector
  ResourceSpec TestStore SysSpec TraceSpec IsolSpec WorkSpec CodecSpec CodecFacts Http HttpSpec HttpFacts EndSpec EndFacts Hoare Demo SysFacts SysTrace StoreFacts SysDemo
  ResourceFacts TraceFacts IsolFacts LeakFacts WorkFacts RedeemFacts RefreshSpec RefreshFacts ViewFacts AmidFacts ChainFacts
  PropsResource PropsTrace PropsIsol PropsWork PropsSilent PropsAmid PropsEnd PropsCodec PropsRefresh.

(** ** What a client can do with what it was given

    All of this is said at a moment of an interleaving: the calls [progs] have been made,
    the world is [s], and the calls have come as far as [ths]. *)
Section Chain.
  Context {S : Type} (W : rworld S) (ok : S -> Prop) (auth : S -> Z -> option authinfo) (tok : S -> string -> option oauthtoken).

  Definition so_far (progs : list (prog unit)) s ths : Prop :=
    exists s0, ok s0 /\ Forall goidc progs /\ psteps W (s0, map start progs) (s, ths).

  (** The token [t] opens the resources for the authorization [i]: amid whatever calls,
      a request presenting it before [k] expires is let through, identified as [i], if
      nobody else acts for the client. *)
  Definition opens progs s ths (t : string) (k : oauthtoken) (i : authinfo) : Prop :=
    forall more s' ths' m rp r th,
    then_calls W s ths more s' ths' -> ended ths more ths' m (done (validate rp r)) th ->
    alone (ai_client i) progs ths more ths' m -> token_from rp r t ->
    (forall now, In (Ev ONow now) (th_past th) -> access_live k now) ->
    exists r', let_through (done (validate rp r)) (th_past th) r r' /\ identified r r' i.

  (** The token endpoint answered [rs], announcing the scope of [i] and the lifetime of the
      token [k] that is now on record; the client reads an access token that opens the
      resources. *)
  Definition given progs s ths (rs : response) (k : oauthtoken) (i : authinfo) : Prop :=
    rs_scope rs = ai_scope i /\ rs_expires rs = ot_access_expires k /\ rs_refresh rs = ot_refresh k /\
    tok s (rs_access rs) = Some k /\ auth s (ot_auth_id k) = Some i /\
    forall t, GoStr.is_int64 (rs_expires rs) = true -> utf8 (rs_access rs) -> client_reads (response_json rs) t ->
      opens progs s ths t k i.

  (** The code can be redeemed: amid whatever calls, the client presenting it at the token
      endpoint with the redirect URI and the verifier is answered with success. *)
  Definition redeems progs s ths (cid uri verifier code : string) (i : authinfo) : Prop :=
    forall more s' ths' m J te w body query gt c th,
    then_calls W s ths more s' ths' -> ended ths more ths' m (token_handler J te (arrives w)) th ->
    alone cid progs ths more ths' m ->
    (forall e, since (ths ++ map start more) ths' e -> stores code (ev_op e) = false) ->
    only_bundled J te -> registered te gt (authorization_code J) ->
    HttpSpec.sent w body query -> first_value "grant_type" (body ++ query)%list gt ->
    first_value "code" (body ++ query)%list code -> code <> "" ->
    first_value "redirect_uri" (body ++ query)%list uri -> uri <> "" ->
    (verifier <> "" -> pkce_passed (arrives w) verifier /\
       exists v, first_value "code_challenge" (body ++ query)%list v /\ v <> "") ->
    signed_in J te (arrives w) c (th_past th) -> c_id c = cid -> (has_word (ai_scope i) "openid" -> can_sign J c) ->
    exists rs k, http_ops (th_past th) = success_answer rs /\ given (progs ++ more) s' ths' rs k i.

  (** The refresh token can be used: amid whatever calls, the client presenting it before
      it expires is given another token. *)
  Definition renews progs s ths (rt : string) (i : authinfo) : Prop :=
    forall more s' ths' m J te w body query gt c th,
    then_calls W s ths more s' ths' -> ended ths more ths' m (token_handler J te (arrives w)) th ->
    alone (ai_client i) progs ths more ths' m ->
    only_bundled J te -> registered te gt refresh_token ->
    HttpSpec.sent w body query -> first_value "grant_type" (body ++ query)%list gt ->
    first_value "refresh_token" (body ++ query)%list rt ->
    signed_in J te (arrives w) c (th_past th) -> c_id c = ai_client i ->
    (forall k now, In (Ev (OFindByRefresh rt) (Some k, None)) (th_past th) -> In (Ev ONow now) (th_past th) -> refresh_live k now) ->
    exists rs k, http_ops (th_past th) = success_answer rs /\ given (progs ++ more) s' ths' rs k i.

  (** And so on: whenever it is used in time, the client is given a token and a refresh
      token for the same authorization, of which the same is true. *)
  CoInductive renews_for_ever progs s ths (rt : string) (i : authinfo) : Prop := RenewsForEver :
    (forall more s' ths' m J te w body query gt c th,
     then_calls W s ths more s' ths' -> ended ths more ths' m (token_handler J te (arrives w)) th ->
     alone (ai_client i) progs ths more ths' m ->
     only_bundled J te -> registered te gt refresh_token ->
     HttpSpec.sent w body query -> first_value "grant_type" (body ++ query)%list gt ->
     first_value "refresh_token" (body ++ query)%list rt ->
     signed_in J te (arrives w) c (th_past th) -> c_id c = ai_client i ->
     (forall k now, In (Ev (OFindByRefresh rt) (Some k, None)) (th_past th) -> In (Ev ONow now) (th_past th) -> refresh_live k now) ->
     exists rs k, http_ops (th_past th) = success_answer rs /\ given (progs ++ more) s' ths' rs k i /\ rs_refresh rs <> "" /\
       renews_for_ever (progs ++ more)%list s' ths' (rs_refresh rs) i) ->
    renews_for_ever progs s ths rt i.

  Context (sess : S -> string -> option authsession) (genuine : oauthtoken -> Prop).
  Hypothesis L : linked_store W ok sess auth.
  Hypothesis P : separate_store W ok sess auth tok genuine.
  Hypothesis A : answering_store W ok sess auth tok.

  Lemma so_far_next progs s ths more s' ths' : so_far progs s ths -> then_calls W s ths more s' ths' -> so_far (progs ++ more) s' ths'.
  Proof.
    intros (s0 & HO & HG & HP) [HM HP2]. exists s0. split; [exact HO|]. split; [apply Forall_app; auto|].
    eapply psteps_trans; [exact (amid_reach W s0 progs more s ths HP)|exact HP2].
  Qed.
  Lemma on_record_opens progs s ths t k i : so_far progs s ths -> tok s t = Some k -> auth s (ot_auth_id k) = Some i ->
    opens progs s ths t k i.
  Proof.
    intros (s0 & HO & HG & HP) Ht Hi more s' ths' m rp r th [HM HP2] (Hm & Hth & HR) HU HT HL.
    exact (C76_tokens_on_record_keep_working S W ok sess auth tok genuine s0 progs s ths more s' ths' t k i m rp r th
             L P A HO HG HM HP Ht Hi HP2 Hm HT Hth HR HU HL).
  Qed.
  Lemma on_record_given progs s ths rs k i : so_far progs s ths ->
    rs_scope rs = ai_scope i -> rs_expires rs = ot_access_expires k -> rs_refresh rs = ot_refresh k ->
    tok s (rs_access rs) = Some k -> auth s (ot_auth_id k) = Some i -> given progs s ths rs k i.
  Proof.
    intros HF H1 H2 H3 H4 H5. do 5 (split; [assumption|]). intros t HI HU HR.
    apply (client_reads_token rs t HI HU) in HR. subst t. apply on_record_opens; assumption.
  Qed.
  Lemma on_record_redeems progs s ths cid uri verifier code x i : so_far progs s ths ->
    sess s code = Some x -> as_auth_id x = ai_id i -> auth s (ai_id i) = Some i -> ai_client i = cid ->
    as_redirect x = uri -> as_verifier x = verifier ->
    (forall z, In (Ev (OFindSession code) (Some z, None)) (all_events ths) -> z = x) ->
    redeems progs s ths cid uri verifier code i.
  Proof.
    intros HF X1 X2 X3 HC X4 X5 X6 more s' ths' m J te w body query gt c th HT (Hm & Hth & HR) HU HSt HB HReg HW V1 V2 N4 V3 N5 HV HSig Hc HSign.
    pose proof (so_far_next _ _ _ _ _ _ HF HT) as HF'. destruct HF as (s0 & HO & HG & HP), HT as [HM HP2].
    destruct (PropsHttp.C82_parameters_arrive w body query "grant_type" HW) as (G1 & _). specialize (G1 _ V1).
    destruct (PropsHttp.C82_parameters_arrive w body query "code" HW) as (G2 & _). specialize (G2 _ V2).
    destruct (PropsHttp.C82_parameters_arrive w body query "redirect_uri" HW) as (G3 & _). specialize (G3 _ V3).
    destruct (amid_redeemed W ok sess auth tok genuine L P A s0 progs more s ths s' ths' m HO HG HM HP HP2 J te (arrives w) c x i th)
      as (now & tg & rs & k & T1 & T2 & T3 & T4 & T5 & T6 & T7 & T8); auto.
    - rewrite G1. exact HReg.
    - rewrite G2. exact X1.
    - rewrite G2. exact X6.
    - rewrite HC. exact HU.
    - rewrite G2. exact HSt.
    - split; [congruence|]. split; [congruence|]. split; [congruence|]. split; [congruence|]. rewrite X5.
      destruct (string_dec verifier "") as [Ev|Ev]; [left; exact Ev|exact (proj1 (HV Ev))].
    - rewrite X5. intros Hv. destruct (HV Hv) as (_ & v & Hv1 & Hv2).
      rewrite (proj1 (PropsHttp.C82_parameters_arrive w body query "code_challenge" HW) _ Hv1). exact Hv2.
    - exists rs, k. split.
      { destruct T1 as (ta & l' & HA & -> & HH & _ & Hl). change (Ev ONow now :: tg ++ l')%list with ((Ev ONow now :: tg) ++ l')%list.
        rewrite app_assoc, http_ops_app, HH, Hl. reflexivity. }
      apply on_record_given; auto; [rewrite T2; exact T6|rewrite T7; exact T8].
  Qed.
  Hypothesis F : refreshing_store W ok tok.
  Lemma on_record_renews progs s ths t k i : so_far progs s ths -> tok s t = Some k -> auth s (ot_auth_id k) = Some i ->
    ot_refresh k <> "" -> has_word (ai_scope i) "offline_access" ->
    forall more s' ths' m J te w body query gt c th,
    then_calls W s ths more s' ths' -> ended ths more ths' m (token_handler J te (arrives w)) th ->
    alone (ai_client i) progs ths more ths' m ->
    only_bundled J te -> registered te gt refresh_token ->
    HttpSpec.sent w body query -> first_value "grant_type" (body ++ query)%list gt ->
    first_value "refresh_token" (body ++ query)%list (ot_refresh k) ->
    signed_in J te (arrives w) c (th_past th) -> c_id c = ai_client i ->
    (forall k' now, In (Ev (OFindByRefresh (ot_refresh k)) (Some k', None)) (th_past th) -> In (Ev ONow now) (th_past th) -> refresh_live k' now) ->
    exists rs k', http_ops (th_past th) = success_answer rs /\ given (progs ++ more) s' ths' rs k' i /\
      tok s' (rs_access rs) = Some k' /\ auth s' (ot_auth_id k') = Some i /\ rs_refresh rs = ot_refresh k' /\
      (renewing_store W ok tok -> ot_refresh k' <> "").
  Proof.
    intros HF Ht Hi Nr Hw more s' ths' m J te w body query gt c th HT (Hm & Hth & HR) HU HB HReg HW V1 V2 HSig Hc HL.
    pose proof (so_far_next _ _ _ _ _ _ HF HT) as HF'. destruct HF as (s0 & HO & HG & HP), HT as [HM HP2].
    destruct (PropsHttp.C82_parameters_arrive w body query "grant_type" HW) as (G1 & _). specialize (G1 _ V1).
    destruct (PropsHttp.C82_parameters_arrive w body query "refresh_token" HW) as (G2 & _). specialize (G2 _ V2).
    destruct (amid_renewed W ok sess auth tok genuine L P A F s0 progs more s ths s' ths' m J te (arrives w) c t k i th)
      as (rs & k' & T1 & T2 & T3 & T4 & T5 & T6 & T7 & T8); auto.
    - rewrite G1. exact HReg.
    - exists rs, k'. split; [exact T1|]. rewrite <- T2 in T6. split; [apply on_record_given; auto|]. auto.
  Qed.
  Lemma on_record_for_ever : renewing_store W ok tok -> forall progs s ths t k i,
    so_far progs s ths -> tok s t = Some k -> auth s (ot_auth_id k) = Some i ->
    ot_refresh k <> "" -> has_word (ai_scope i) "offline_access" -> renews_for_ever progs s ths (ot_refresh k) i.
  Proof.
    intros N. cofix IH. intros progs s ths t k i HF Ht Hi Nr Hw. constructor.
    intros more s' ths' m J te w body query gt c th HT HE HU HB HReg HW V1 V2 HSig Hc HL.
    destruct (on_record_renews progs s ths t k i HF Ht Hi Nr Hw more s' ths' m J te w body query gt c th HT HE HU HB HReg HW V1 V2 HSig Hc HL)
      as (rs & k' & T1 & T2 & T3 & T4 & T5 & T6).
    exists rs, k'. split; [exact T1|]. split; [exact T2|]. specialize (T6 N). split; [rewrite T5; exact T6|].
    rewrite T5. exact (IH (progs ++ more)%list s' ths' (rs_access rs) k' i (so_far_next _ _ _ _ _ _ HF HT) T3 T4 T6 Hw).
  Qed.
End Chain.

(** ** C96 Every flow works from end to end, and for as long as it is renewed. *)

(* The user approves, amid other calls.  The access token in the answer (implicit and hybrid
   flows), as the client reads it out of the fragment, the query or the form, opens the
   resources for the authorization just given; the code in it (code and hybrid flows) can be
   redeemed for that authorization. *)
Theorem C96_approved :
  forall S (W : rworld S) ok sess auth tok genuine,
  linked_store W ok sess auth -> separate_store W ok sess auth tok genuine -> answering_store W ok sess auth tok ->
  forall progs s1 ths1 more s2 ths2 m E pol th,
  so_far W ok progs s1 ths1 -> then_calls W s1 ths1 more s2 ths2 ->
  ended ths1 more ths2 m (done (complete_request E pol)) th -> exec (complete_request E pol) (th_past th) (Done true) ->
  exists req i, recorded req (Some i) (th_past th) /\ ai_client i = rq_client req /\
  forall l, alone (rq_client req) progs ths1 more ths2 m ->
    plain_uri (rq_redirect req) -> client_sees (rq_mode req) (rq_redirect req) (th_past th) l ->
    (forall t, first_value "access_token" l t -> exists k, opens W (progs ++ more) s2 ths2 t k i) /\
    (forall code, first_value "code" l code -> new_code sess s1 ths1 more ths2 m code ->
       redeems W auth tok (progs ++ more) s2 ths2 (rq_client req) (rq_redirect req) (rq_verifier req) code i).
Proof.
  intros S W ok sess auth tok genuine L P A progs s1 ths1 more s2 ths2 m E pol th HF HT (Hm & Hth & HR) He.
  pose proof (so_far_next W ok _ _ _ _ _ _ HF HT) as HF'. destruct HF as (s0 & HO & HG & HP), HT as [HM HP2].
  destruct (amid_complete W ok sess auth tok genuine L P A s0 progs more s1 ths1 s2 ths2 m HO HG HM HP HP2 E pol th Hm Hth HR He)
    as (req & i & H1 & H2 & H3).
  exists req, i. split; [exact H1|]. split; [exact H2|].
  intros l HU (N1 & N2 & N3) HS. destruct (H3 HU) as (params & K1 & K2 & K3).
  assert (HIn : Permutation l params).
  { destruct (wp_exec _ _ _ _ _ (complete_request_wp E pol) He) as (req' & info & tc & (uid & rest & Er) & E3 & HC).
    destruct H1 as (uid' & rest' & Er'). rewrite Er in E3. cbn [skipn] in E3. subst tc.
    assert (req' = req) as ->.
    { rewrite Er in Er'. apply (f_equal (fun l => option_map cont_ans (hd_error l))) in Er'. cbn in Er'. injection Er' as X. exact X. }
    rewrite Er in HS, K1.
    eapply (sees_sent _ _ _ _ _ [Ev OContinue (Some (Some req)); Ev OLoginUser (Some uid); Ev (OCreateInfo uid (rq_client req) (rq_scope req)) (info, None)]);
      [exact HC|reflexivity|exact K1|exact N1|exact N2|exact N3|exact HS]. }
  split.
  - intros t Ht. destruct (K3 t (Permutation_in _ HIn (first_in _ _ _ Ht))) as (k & _ & T1 & T2 & T3). exists k.
    eapply on_record_opens; eauto. rewrite T2. exact T3.
  - intros code Hc HN. destruct (K2 code (Permutation_in _ HIn (first_in _ _ _ Hc)) HN) as (x & X1 & X2 & X3 & X4 & X5 & X6).
    eapply on_record_redeems; eauto.
Qed.
Print Assumptions C96_approved.

(* The same when HandleRequest answers without asking the user, who agreed before:
   whenever it writes anything that is not an error. *)
Theorem C96_not_asked :
  forall S (W : rworld S) ok sess auth tok genuine,
  linked_store W ok sess auth -> separate_store W ok sess auth tok genuine -> answering_store W ok sess auth tok ->
  forall progs s1 ths1 more s2 ths2 m E pol r th,
  so_far W ok progs s1 ths1 -> then_calls W s1 ths1 more s2 ths2 ->
  ended ths1 more ths2 m (done (handle_request E pol r)) th ->
  alone (form_value r "client_id") progs ths1 more ths2 m ->
  handled_with pol r (th_past th) (fun q params => forall l,
    plain_uri (rq_redirect q) -> client_sees (rq_mode q) (rq_redirect q) (th_past th) l ->
    (forall t, first_value "access_token" l t -> exists k i, ai_client i = rq_client q /\ opens W (progs ++ more) s2 ths2 t k i) /\
    (forall code, first_value "code" l code -> new_code sess s1 ths1 more ths2 m code ->
       exists i, ai_client i = rq_client q /\
         redeems W auth tok (progs ++ more) s2 ths2 (rq_client q) (rq_redirect q) (rq_verifier q) code i)).
Proof.
  intros S W ok sess auth tok genuine L P A progs s1 ths1 more s2 ths2 m E pol r th HF HT (Hm & Hth & HR) HU.
  pose proof (so_far_next W ok _ _ _ _ _ _ HF HT) as HF'. destruct HF as (s0 & HO & HG & HP), HT as [HM HP2].
  destruct (done_exec _ _ (amid_exec W ok sess auth L s0 progs more s1 ths1 s2 ths2 m HO HP HP2 _ _ Hm Hth HR)) as [b He].
  destruct (amid_handle W ok sess auth tok genuine L P A s0 progs more s1 ths1 s2 ths2 m HO HG HM HP HP2 E pol r th b Hm Hth HR He HU)
    as [H|[H|(c & q & params & H1 & H2 & H3 & H4 & H5)]]; [left; exact H|right; left; exact H|].
  right. right. exists c, q, params. do 3 (split; [assumption|]).
  intros l (N1 & N2 & N3) HS.
  assert (HIn : Permutation l params).
  { destruct HS as [loc x M1 M2 E1 Q1 F1|loc f M E1 Q1 F1|doc M E1 Q1].
    - destruct (C44_query _ _ _ _ [] H3 M1 M2 N1 (or_introl (conj N2 eq_refl))) as (loc' & q' & so & y & E2 & _ & Q2 & _ & F2 & P2).
      rewrite E1 in E2. injection E2 as <-. rewrite <- (query_part_unique _ _ _ Q1 Q2) in F2.
      apply form_text_iff in F1. apply parse_query_form in F2. simpl in F2. rewrite F1 in F2. subst. exact P2.
    - rewrite M in H3. destruct (C44_fragment _ _ _ [] H3 (or_introl (conj N1 eq_refl))) as (loc' & q' & so & y & E2 & _ & Q2 & F2 & P2).
      rewrite E1 in E2. injection E2 as <-. rewrite <- (fragment_part_unique _ _ _ Q1 Q2) in F2.
      apply form_text_iff in F1. apply parse_query_form in F2. simpl in F2. rewrite F1 in F2. subst. exact P2.
    - rewrite (v_redirect _ _ _ _ H2) in N3, H3, Q1.
      destruct (C45_handle_request _ _ _ _ _ _ He E1 N3) as (mode & params' & G1 & G2).
      destruct (answered_body _ _ _ _ _ G1 E1) as (-> & _). rewrite M in H3.
      rewrite (answered_unique _ _ _ _ H3 G1). eapply posts_unique; eauto. }
  split.
  - intros t Ht. destruct (H5 t (Permutation_in _ HIn (first_in _ _ _ Ht))) as (i & Hi & k & _ & T1 & T2 & T3). exists k, i.
    split; [exact Hi|]. eapply on_record_opens; eauto. rewrite T2. exact T3.
  - intros code Hc HN. destruct (H4 code (Permutation_in _ HIn (first_in _ _ _ Hc))) as (i & Hi & K). exists i. split; [exact Hi|].
    destruct (K HN) as (x & X1 & X2 & X3 & X4 & X5 & X6). eapply on_record_redeems; eauto.
Qed.
Print Assumptions C96_not_asked.

(* Whatever grant a client uses, what a successful answer of the token endpoint gives it
   works. *)
Theorem C96_granted :
  forall S (W : rworld S) ok sess auth tok genuine,
  linked_store W ok sess auth -> separate_store W ok sess auth tok genuine -> answering_store W ok sess auth tok ->
  forall progs s1 ths1 more s2 ths2 m J te r th,
  so_far W ok progs s1 ths1 -> then_calls W s1 ths1 more s2 ths2 ->
  ended ths1 more ths2 m (token_handler J te r) th -> only_bundled J te ->
  ~ registered te (form_value r "grant_type") refresh_token -> In 200%Z (statuses (th_past th)) ->
  exists c rs, signed_in J te r c (th_past th) /\ http_ops (th_past th) = success_answer rs /\
    (alone (c_id c) progs ths1 more ths2 m ->
     exists k i, ai_client i = c_id c /\ given W auth tok (progs ++ more) s2 ths2 rs k i).
Proof.
  intros S W ok sess auth tok genuine L P A progs s1 ths1 more s2 ths2 m J te r th HF HT HE HB HN HI.
  pose proof (so_far_next W ok _ _ _ _ _ _ HF HT) as HF'. destruct HF as (s0 & HO & HG & HP), HT as [HM HP2].
  destruct (C76_given_out_amid_others S W ok sess auth tok genuine s0 progs s1 ths1 more s2 ths2 m J te r th L P A
     (conj HO (conj HG (conj HM (conj HP HP2)))) HE HB HN HI) as (c & rs & H1 & H2 & H3).
  exists c, rs. split; [exact H1|]. split; [exact H2|]. intros HU.
  destruct (H3 HU) as (k & i & T1 & T2 & T3 & T4 & T5 & T6). exists k, i. split; [exact T3|].
  eapply on_record_given; eauto.
Qed.
Print Assumptions C96_granted.

(* A client that was given a token with a refresh token, for a scope with offline_access, is
   given another whenever it asks for it in time. *)
Theorem C96_renewed :
  forall S (W : rworld S) ok sess auth tok genuine,
  linked_store W ok sess auth -> separate_store W ok sess auth tok genuine -> answering_store W ok sess auth tok ->
  refreshing_store W ok tok ->
  forall progs s ths rs k i,
  so_far W ok progs s ths -> given W auth tok progs s ths rs k i ->
  rs_refresh rs <> "" -> has_word (rs_scope rs) "offline_access" ->
  renews W auth tok progs s ths (rs_refresh rs) i.
Proof.
  intros S W ok sess auth tok genuine L P A F progs s ths rs k i HF (G1 & G2 & G3 & G4 & G5 & _) HN HW.
  rewrite G3 in HN |- *. rewrite G1 in HW.
  intros more s' ths' m J te w body query gt c th HT HE HU HB HReg HWi V1 V2 HSig Hc HL.
  destruct (on_record_renews W ok auth tok sess genuine L P A F progs s ths _ k i HF G4 G5 HN HW more s' ths' m J te w body query gt c th
     HT HE HU HB HReg HWi V1 V2 HSig Hc HL) as (rs' & k' & T1 & T2 & _).
  exists rs', k'. auto.
Qed.
Print Assumptions C96_renewed.

(* And so on, for as long as it keeps renewing, if the data layer's refresh tokens last: the
   authorization once given never runs out. *)
Theorem C96_renewed_for_ever :
  forall S (W : rworld S) ok sess auth tok genuine,
  linked_store W ok sess auth -> separate_store W ok sess auth tok genuine -> answering_store W ok sess auth tok ->
  refreshing_store W ok tok -> renewing_store W ok tok ->
  forall progs s ths rs k i,
  so_far W ok progs s ths -> given W auth tok progs s ths rs k i ->
  rs_refresh rs <> "" -> has_word (rs_scope rs) "offline_access" ->
  renews_for_ever W auth tok progs s ths (rs_refresh rs) i.
Proof.
  intros S W ok sess auth tok genuine L P A F N progs s ths rs k i HF (G1 & G2 & G3 & G4 & G5 & _) HN HW.
  rewrite G3 in HN |- *. rewrite G1 in HW. eapply on_record_for_ever; eauto.
Qed.
Print Assumptions C96_renewed_for_ever.

(** ** A story

    User 42 approves client1's request for "openid offline_access"; client1 redeems the
    code, renews the token, renews it again and uses it - while client2 keeps trying to
    redeem the code. *)
Definition offline_request : arequest :=
  ARequest (Some (Flow FAuthorizationCode false false)) "client1" "openid offline_access" "https://rp.example/cb" "query" "s1"
    "a-code-verifier" "n1" "page" "" 0 "ja" "" "".
Definition offline : answers :=
  let w := answers1 "" in
  Answers (w_client w) (w_session w) (w_active w) (w_info w) (w_access w) (w_refresh w) (w_token w)
    (w_user w) (w_disable w) (w_record w) (w_now w) (w_login w) (w_from_login w) (w_auth_time w)
    (w_login_user w) (w_code w) (w_subject w) (Some (Some offline_request)).
Definition renew_wire : wire :=
  Wire "POST" "/token" [("Content-Type", "application/x-www-form-urlencoded"); basic1] ""
    "grant_type=refresh_token&refresh_token=REFRESH%5FTOKEN%5F0".
Definition renewed_request : request := api_request [("Authorization", "Bearer ACCESS_TOKEN_0:R:R")] [] [].
Definition renewing : prog unit := demo_token (arrives renew_wire).
Definition tale1 := [thief; demo_complete].
Definition tale2 := [thief; demo_token (arrives token_wire)].
Definition tale3 := [thief; renewing].
Definition tale5 := [thief; done (validate rp0 renewed_request)].
Definition act1 := sched false offline ([0; 1; 0; 1; 0; 1; 1; 0; 1; 1; 1] ++ repeat 0 7)%nat%list store4 (map start tale1).
Definition act2 := sched false offline (repeat 2 3 ++ repeat 3 4 ++ repeat 2 7 ++ repeat 3 10)%nat%list (fst act1) (snd act1 ++ map start tale2)%list.
Definition act3 := sched false offline (repeat 4 3 ++ repeat 5 3 ++ repeat 4 6 ++ repeat 5 10)%nat%list (fst act2) (snd act2 ++ map start tale3)%list.
Definition act4 := sched false offline (repeat 6 3 ++ repeat 7 3 ++ repeat 6 6 ++ repeat 7 10)%nat%list (fst act3) (snd act3 ++ map start tale3)%list.
Definition act5 := sched false offline ([8; 9; 8; 9; 8; 9] ++ repeat 8 6)%nat%list (fst act4) (snd act4 ++ map start tale5)%list.

Lemma sched_firstn b w n l : Forall (fun j => n <= j)%nat l -> forall s ths, firstn n (snd (sched b w l s ths)) = firstn n ths.
Proof.
  induction 1 as [|j l Hj HF IH]; intros s ths; [reflexivity|]. simpl.
  destruct (nth_error ths j) as [[past [a| |o k]]|] eqn:E; try reflexivity.
  destruct (sfun b w s o) as [[a s1]|]; [|reflexivity]. rewrite IH, firstn_app, firstn_firstn, (Nat.min_l n j Hj).
  assert (j < length ths)%nat by (apply nth_error_Some; congruence).
  rewrite firstn_length, Nat.min_l by lia. replace (n - j)%nat with 0%nat by lia. simpl. apply app_nil_r.
Qed.
Lemma sched_before b w l s (ths ths2 : list (thread unit)) : forallb (Nat.leb (length ths)) l = true ->
  firstn (length ths) (snd (sched b w l s (ths ++ ths2))) = ths.
Proof.
  intros H. rewrite sched_firstn.
  - rewrite firstn_app, Nat.sub_diag, firstn_all. simpl. apply app_nil_r.
  - rewrite Forall_forall. intros j Hj. rewrite forallb_forall in H. apply Nat.leb_le. auto.
Qed.
Lemma ended_nth (ths : list (thread unit)) more ths' m p n d : nth_error more m = Some p -> n = (length ths + m)%nat ->
  (n < length ths')%nat -> th_rest (nth n ths' d) = Ret tt -> ended ths more ths' m p (nth n ths' d).
Proof. intros H -> HL HR. split; [exact H|]. split; [apply nth_error_nth'; exact HL|exact HR]. Qed.

(** Thread 0 of [more] is the thief, nobody else besides thread 1 is at work. *)
Lemma alone_tale progs (ths : list (thread unit)) more ths' :
  length progs = length ths -> nth_error more 0 = Some thief -> length more = 2%nat ->
  firstn (length ths) ths' = ths -> length ths' = (length ths + 2)%nat ->
  option_map (fun th => guessing (th_past th)) (nth_error ths' (length ths)) = Some true ->
  alone "client1" progs ths more ths' 1.
Proof.
  intros HP HM HL HF HN HG. unfold alone. apply (alone_thief _ _ _ (length ths)); [| |exact HG].
  - rewrite nth_error_app2 by lia. rewrite HP, Nat.sub_diag. exact HM.
  - intros j H1 H2. destruct (Nat.lt_ge_cases j (length ths)) as [Hj|Hj].
    + rewrite nth_error_app1 by exact Hj. rewrite <- (firstn_skipn (length ths) ths'), HF. apply nth_error_app1. exact Hj.
    + transitivity (@None (thread unit)); [|symmetry]; apply nth_error_None; [lia|rewrite app_length, map_length; lia].
Qed.
Lemma since_tale code (ths : list (thread unit)) more ths' :
  firstn (length ths) ths' = ths ->
  forallb (fun th => forallb (fun e => negb (stores code (ev_op e))) (th_past th)) (skipn (length ths) ths') = true ->
  forall e, since (ths ++ map start more) ths' e -> stores code (ev_op e) = false.
Proof.
  intros HF X e (n & a & b & t & H1 & H2 & H3 & H4).
  rewrite <- (firstn_skipn (length ths) ths'), HF in H2.
  destruct (Nat.lt_ge_cases n (length ths)) as [Hn|Hn].
  - exfalso. rewrite nth_error_app1 in H1 by exact Hn. rewrite nth_error_app1 in H2 by exact Hn.
    rewrite H1 in H2. injection H2 as <-. rewrite <- (app_nil_r (th_past a)) in H3 at 1. apply app_inv_head in H3. subst t. destruct H4.
  - rewrite nth_error_app2 in H2 by exact Hn. apply nth_error_In in H2. rewrite forallb_forall in X. apply X in H2.
    rewrite forallb_forall in H2. assert (HX : In e (th_past b)) by (rewrite H3; apply in_or_app; auto).
    apply H2 in HX. destruct (stores code (ev_op e)); [discriminate HX|reflexivity].
Qed.
Definition seen_live (n : nat) (ths : list (thread unit)) : bool :=
  match nth_error ths n with
  | Some th => forallb (fun a => match a with (Some k, None) => forallb (fun now => (now <=? add64 (ot_refresh_expires k) (ot_created k))%Z)
                                              (flat_map now_seen (th_past th)) | _ => true end) (flat_map refresh_seen (th_past th))
  | None => true
  end.
Lemma seen_live_ok n ths th rt k now : seen_live n ths = true -> nth_error ths n = Some th ->
  In (Ev (OFindByRefresh rt) (Some k, None)) (th_past th) -> In (Ev ONow now) (th_past th) -> refresh_live k now.
Proof.
  unfold seen_live. intros H Hn Hk Ho. rewrite Hn in H. rewrite forallb_forall in H.
  assert (In (Some k, None) (flat_map refresh_seen (th_past th))) as K by (apply in_flat_map; eexists; split; [exact Hk|simpl; auto]).
  assert (In now (flat_map now_seen (th_past th))) as N by (apply in_flat_map; eexists; split; [exact Ho|simpl; auto]).
  apply H in K. cbv beta iota in K. rewrite forallb_forall in K. apply K in N. apply Z.leb_le in N. exact N.
Qed.

Example C96_example :
  let W := sstep false in let tk s t := sget t (st_tokens s) in let au s id := zget id (st_infos s) in
  let th1 := nth 1 (snd act1) (start thief) in let th2 := nth 3 (snd act2) (start thief) in
  let th3 := nth 5 (snd act3) (start thief) in let th4 := nth 7 (snd act4) (start thief) in let th5 := nth 9 (snd act5) (start thief) in
  so_far W renewable [] store4 [] /\ refreshing_store W renewable tk /\ renewing_store W renewable tk /\
  (* C96_approved *)
  then_calls W store4 [] tale1 (fst act1) (snd act1) /\ ended [] tale1 (snd act1) 1 demo_complete th1 /\
  exec demo_agree (th_past th1) (Done true) /\ alone "client1" [] [] tale1 (snd act1) 1 /\ plain_uri "https://rp.example/cb" /\
  client_sees "query" "https://rp.example/cb" (th_past th1) [("code", "code1"); ("state", "s1")] /\
  new_code (fun s code => sget code (st_sessions s)) store4 [] tale1 (snd act1) 1 "code1" /\
  (* redeems *)
  then_calls W (fst act1) (snd act1) tale2 (fst act2) (snd act2) /\
  ended (snd act1) tale2 (snd act2) 1 (token_handler demoJ te0 (arrives token_wire)) th2 /\
  alone "client1" tale1 (snd act1) tale2 (snd act2) 1 /\
  (forall e, since (snd act1 ++ map start tale2) (snd act2) e -> stores "code1" (ev_op e) = false) /\
  signed_in demoJ te0 (arrives token_wire) client1 (th_past th2) /\ statuses (th_past th2) = [200%Z] /\
  (* renews, and renews again *)
  then_calls W (fst act2) (snd act2) tale3 (fst act3) (snd act3) /\
  ended (snd act2) tale3 (snd act3) 1 (token_handler demoJ te0 (arrives renew_wire)) th3 /\
  alone "client1" (tale1 ++ tale2) (snd act2) tale3 (snd act3) 1 /\
  HttpSpec.sent renew_wire [("grant_type", "refresh_token"); ("refresh_token", "REFRESH_TOKEN_0")] [] /\
  registered te0 "refresh_token" refresh_token /\
  signed_in demoJ te0 (arrives renew_wire) client1 (th_past th3) /\
  (forall k now, In (Ev (OFindByRefresh "REFRESH_TOKEN_0") (Some k, None)) (th_past th3) -> In (Ev ONow now) (th_past th3) -> refresh_live k now) /\
  In (OBody "{""token_type"":""Bearer"",""access_token"":""ACCESS_TOKEN_0:R"",""expires_in"":86400,""refresh_token"":""REFRESH_TOKEN_0"",""scope"":""openid offline_access""}") (ops (th_past th3)) /\
  then_calls W (fst act3) (snd act3) tale3 (fst act4) (snd act4) /\
  ended (snd act3) tale3 (snd act4) 1 (token_handler demoJ te0 (arrives renew_wire)) th4 /\
  alone "client1" ((tale1 ++ tale2) ++ tale3) (snd act3) tale3 (snd act4) 1 /\
  (forall k now, In (Ev (OFindByRefresh "REFRESH_TOKEN_0") (Some k, None)) (th_past th4) -> In (Ev ONow now) (th_past th4) -> refresh_live k now) /\
  (* opens *)
  then_calls W (fst act4) (snd act4) tale5 (fst act5) (snd act5) /\
  ended (snd act4) tale5 (snd act5) 1 (done (validate rp0 renewed_request)) th5 /\
  alone "client1" (((tale1 ++ tale2) ++ tale3) ++ tale3) (snd act4) tale5 (snd act5) 1 /\
  token_from rp0 renewed_request "ACCESS_TOKEN_0:R:R" /\
  map (fun th => statuses (th_past th)) (snd act5) = [[400%Z]; []; [400%Z]; [200%Z]; [400%Z]; [200%Z]; [400%Z]; [200%Z]; [400%Z]; []].
Proof.
  cbv zeta.
  assert (G1 : Forall goidc tale1) by exact story1_goidc.
  assert (G2 : Forall goidc tale2) by exact story2_goidc.
  assert (G3 : Forall goidc tale3) by (repeat constructor; exact te0_bundled).
  assert (G5 : Forall goidc tale5) by (constructor; [apply g_token; exact te0_bundled|]; constructor; [apply g_resource|constructor]).
  split. { exists store4. split; [|split; [constructor|apply psteps_refl]]. split; [exact store4_tidiest|intros t k []]. }
  split; [apply bundled_refreshing|]. split; [apply bundled_renewing|].
  split. { split; [exact G1|]. exact (sched_both false offline _ _ _). }
  split. { apply ended_nth; [reflexivity|vm_compute; reflexivity|vm_compute; repeat constructor|vm_compute; reflexivity]. }
  split. { let t := eval vm_compute in (th_past (nth 1 (snd act1) (start thief))) in
             replace (th_past (nth 1 (snd act1) (start thief))) with t by (vm_compute; reflexivity).
           repeat first [apply exec_vis|apply exec_ret]. }
  split. { apply (alone_tale [] []); [reflexivity..|vm_compute; reflexivity|vm_compute; reflexivity]. }
  split. { repeat split; apply CodecFacts.no_byte_has; reflexivity. }
  split. { apply see_query with (loc := "https://rp.example/cb?code=code1&state=s1") (q := "code=code1&state=s1");
             [discriminate|discriminate|vm_compute; reflexivity| |apply form_text_iff; vm_compute; reflexivity].
           exists "https://rp.example/cb", "". split; [reflexivity|]. repeat (split; [apply CodecFacts.no_byte_has; reflexivity|]). auto. }
  split. { split; [reflexivity|]. split; [intros z []|].
           intros e (n & a & b & t & Hn & H1 & H2 & H3 & H4).
           assert (X : forallb (fun e => negb (stores "code1" (ev_op e))) (match nth_error (snd act1) 0 with Some th => th_past th | None => [] end) = true)
             by (vm_compute; reflexivity).
           destruct n as [|[|n]]; [|destruct (Hn eq_refl)|destruct n; discriminate H1].
           rewrite H2 in X. rewrite forallb_forall in X. assert (HX : In e (th_past b)) by (rewrite H3; apply in_or_app; auto).
           apply X in HX. destruct (stores "code1" (ev_op e)); [discriminate HX|reflexivity]. }
  split. { split; [exact G2|]. exact (sched_both false offline _ _ _). }
  split. { apply ended_nth; [reflexivity|vm_compute; reflexivity|vm_compute; repeat constructor|vm_compute; reflexivity]. }
  split. { apply alone_tale; [vm_compute; reflexivity|reflexivity|reflexivity|apply sched_before; vm_compute; reflexivity|vm_compute; reflexivity|vm_compute; reflexivity]. }
  split. { apply since_tale; [apply sched_before; vm_compute; reflexivity|vm_compute; reflexivity]. }
  split.
  { assert (Y : firstn 2 (th_past (nth 3 (snd act2) (start thief))) = [Ev (OFindClient "client1") (Some client1, None); Ev ONow 1010%Z]) by (vm_compute; reflexivity).
    eapply signed_demo; [reflexivity|reflexivity|reflexivity|].
    rewrite <- (firstn_skipn 2 (th_past (nth 3 (snd act2) (start thief)))), Y. reflexivity. }
  split; [vm_compute; reflexivity|].
  split. { split; [exact G3|]. exact (sched_both false offline _ _ _). }
  split. { apply ended_nth; [reflexivity|vm_compute; reflexivity|vm_compute; repeat constructor|vm_compute; reflexivity]. }
  split. { apply alone_tale; [vm_compute; reflexivity|reflexivity|reflexivity|apply sched_before; vm_compute; reflexivity|vm_compute; reflexivity|vm_compute; reflexivity]. }
  split.
  { split; [apply form_text_iff; vm_compute; reflexivity|]. left. split; [simpl; auto|]. split.
    - apply PropsHttp.plain_form. reflexivity.
    - split; [vm_compute; discriminate|apply form_text_iff; vm_compute; reflexivity]. }
  split; [exact te0_refresh|].
  split.
  { assert (Y : firstn 2 (th_past (nth 5 (snd act3) (start thief))) = [Ev (OFindClient "client1") (Some client1, None); Ev ONow 1010%Z]) by (vm_compute; reflexivity).
    eapply signed_demo; [reflexivity|reflexivity|reflexivity|].
    rewrite <- (firstn_skipn 2 (th_past (nth 5 (snd act3) (start thief)))), Y. reflexivity. }
  split. { intros k now. apply (seen_live_ok 5 (snd act3)); vm_compute; reflexivity. }
  split. { assert (X : existsb (fun o => match o with OBody d => seqb d "{""token_type"":""Bearer"",""access_token"":""ACCESS_TOKEN_0:R"",""expires_in"":86400,""refresh_token"":""REFRESH_TOKEN_0"",""scope"":""openid offline_access""}" | _ => false end)
               (ops (th_past (nth 5 (snd act3) (start thief)))) = true) by (vm_compute; reflexivity).
           apply existsb_exists in X. destruct X as (o & Ho & Eo). destruct o; try discriminate Eo. apply seqb_eq in Eo. subst. exact Ho. }
  split. { split; [exact G3|]. exact (sched_both false offline _ _ _). }
  split. { apply ended_nth; [reflexivity|vm_compute; reflexivity|vm_compute; repeat constructor|vm_compute; reflexivity]. }
  split. { apply alone_tale; [vm_compute; reflexivity|reflexivity|reflexivity|apply sched_before; vm_compute; reflexivity|vm_compute; reflexivity|vm_compute; reflexivity]. }
  split. { intros k now. apply (seen_live_ok 7 (snd act4)); vm_compute; reflexivity. }
  split. { split; [exact G5|]. exact (sched_both false offline _ _ _). }
  split. { apply ended_nth; [reflexivity|vm_compute; reflexivity|vm_compute; repeat constructor|vm_compute; reflexivity]. }
  split. { apply alone_tale; [vm_compute; reflexivity|reflexivity|reflexivity|apply sched_before; vm_compute; reflexivity|vm_compute; reflexivity|vm_compute; reflexivity]. }
  split. { change "ACCESS_TOKEN_0:R:R" with (find_token rp0 renewed_request). apply token_from_some. discriminate. }
  vm_compute. reflexivity.
Qed.
