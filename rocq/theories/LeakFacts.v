(** * Refusals say nothing about other clients. *)
From Coq Require Import Lia.
From Verif Require Import Hoare WpTac Core World Spec TokenSpec OAuthError Assertion Grants TokenEndpoint GrantFacts TokenFacts
  TokenProofs LogFacts TokenMore AuthzSpec SysSpec TraceSpec IsolSpec.

(** ** Projections of events *)
Definition client_ans (e : event) : option (string * dres client) :=
  match e with Ev o a => (match o as o0 return ans o0 -> option (string * dres client) with OFindClient c => fun a => Some (c, a) | _ => fun _ => None end) a end.
Definition sess_ans (e : event) : option (string * dres authsession) :=
  match e with Ev o a => (match o as o0 return ans o0 -> option (string * dres authsession) with OFindSession c => fun a => Some (c, a) | _ => fun _ => None end) a end.
Definition info_ans (e : event) : option (Z * dres authinfo) :=
  match e with Ev o a => (match o as o0 return ans o0 -> option (Z * dres authinfo) with OFindActiveInfo c => fun a => Some (c, a) | _ => fun _ => None end) a end.
Definition refresh_ans (e : event) : option (string * dres oauthtoken) :=
  match e with Ev o a => (match o as o0 return ans o0 -> option (string * dres oauthtoken) with OFindByRefresh c => fun a => Some (c, a) | _ => fun _ => None end) a end.

(** ** Clients *)
Lemma secret_refusal te r gt cid sec b t x : exec (validate_by_secret te r gt cid sec b) t x ->
  (exists y rest, t = Ev (OFindClient cid) (y, Some ErrFailed) :: rest) \/
  (exists c rest, t = Ev (OFindClient cid) (Some c, None) :: rest /\ c_match_secret c sec = false) ->
  x = Done None /\
  http_ops t = answer (if b then basic_challenge (te_realm te) :: no_cache_headers else no_cache_headers)
                 (if b then 401 else 400)%Z (oerr_json (with_uri (te_uri te) (simple_oerr EInvalidClient))).
Proof.
  intros H. by_wp H. unfold validate_by_secret. unfold_te. wp_go; hist.
  all: intros [(y & rest & E)|(cl & rest & E & Hc)]; apply (f_equal (map client_ans)) in E; cbn [map client_ans] in E;
    injection E as E; subst; try discriminate; try congruence.
  all: split; reflexivity.
Qed.

Lemma wrong_client_answer J te r b tr x : exec (token_handler J te r) tr x -> wrong_client te r b tr ->
  http_ops tr = answer (if b then basic_challenge (te_realm te) :: no_cache_headers else no_cache_headers)
                 (if b then 401 else 400)%Z (oerr_json (with_uri (te_uri te) (simple_oerr EInvalidClient))).
Proof.
  intros H HW.
  assert (HS : exists cid sec, presented te r cid sec b /\
     ((exists y rest, tr = Ev (OFindClient cid) (y, Some ErrFailed) :: rest) \/
      (exists c rest, tr = Ev (OFindClient cid) (Some c, None) :: rest /\ c_match_secret c sec = false))).
  { destruct HW; exists cid, sec; (split; [assumption|]); [left|right]; eauto. }
  destruct HS as (cid & sec & HP & HS). revert H. unfold token_handler.
  destruct (r_method r =s? "POST") eqn:EM; cbn [negb].
  2: { intros H. exfalso. apply exec_inv in H. destruct H as ([] & t & -> & _).
       destruct HS as [(y & rest & E)|(c & rest & E & _)]; discriminate. }
  destruct (form_value r "grant_type" =s? "") eqn:EG.
  { intros H. exfalso. apply exec_inv in H. destruct H as ([] & t & -> & _).
    destruct HS as [(y & rest & E)|(c & rest & E & _)]; discriminate. }
  destruct (find_handler (form_value r "grant_type") (te_handlers te)) as [h|] eqn:EH.
  2: { intros H. exfalso. apply exec_inv in H. destruct H as ([] & t & -> & _).
       destruct HS as [(y & rest & E)|(c & rest & E & _)]; discriminate. }
  rewrite (presented_find _ _ _ _ _ HP). intros H.
  apply exec_bind in H. destruct H as [(t1 & t2 & oc & H1 & H2 & ->)|[H1 ->]].
  - assert (HS' : (exists y rest, t1 = Ev (OFindClient cid) (y, Some ErrFailed) :: rest) \/
      (exists c rest, t1 = Ev (OFindClient cid) (Some c, None) :: rest /\ c_match_secret c sec = false)).
    { pose proof H1 as H1'. unfold validate_by_secret in H1'. apply exec_inv in H1'. destruct H1' as (a & t & -> & _).
      cbn [app] in HS. destruct HS as [(y & rest & E)|(c & rest & E & Hc)]; [left; exists y, t|right; exists c, t].
      - apply (f_equal (map client_ans)) in E. injection E as E _. rewrite E. reflexivity.
      - apply (f_equal (map client_ans)) in E. injection E as E _. rewrite E. auto. }
    destruct (secret_refusal _ _ _ _ _ _ _ _ H1 HS') as [E Ha]. injection E as ->. apply exec_inv in H2.
    destruct H2 as [-> ->]. rewrite app_nil_r. exact Ha.
  - destruct (secret_refusal _ _ _ _ _ _ _ _ H1 HS) as [E _]. discriminate.
Qed.

(** ** Codes and refresh tokens *)
Ltac in_ans f H := apply (in_map f) in H; cbn [map f In] in H; repeat (destruct H as [H|H]; [try discriminate H; try injection H as H|]).

Lemma code_refusal J r c now t x : exec (authorization_code J r c now) t x -> nothing_yours r c t ->
  x = Done (inr (simple_oerr EInvalidGrant)).
Proof.
  intros H. by_wp H. unfold_grants. wp_go; unfold refuse; try apply wp_ret; hist; try reflexivity.
  all: intros [yy K1|ss yy K1 K2|ss ii K1 K2 K3]; in_ans sess_ans K1; try (contradiction K1); subst; try discriminate.
  all: try (in_ans info_ans K2; try (contradiction K2); subst; try discriminate; try congruence; try reflexivity).
Qed.

Lemma refresh_refusal r c now t x : exec (refresh_token r c now) t x -> no_refresh r c t ->
  x = Done (inr (simple_oerr EInvalidGrant)).
Proof.
  intros H. by_wp H. unfold_grants. wp_go; unfold refuse; try apply wp_ret; hist; try reflexivity.
  all: intros [yy K1|ss yy K1 K2|ss ii K1 K2 K3]; in_ans refresh_ans K1; try (contradiction K1); subst; try discriminate.
  all: try (in_ans info_ans K2; try (contradiction K2); subst; try discriminate; try congruence; try reflexivity).
Qed.

(** The client of a run is the one that it looked up first. *)
Lemma signed_head J te r c tr : signed_in J te r c tr -> exists cid rest, tr = Ev (OFindClient cid) (Some c, None) :: rest.
Proof. intros (ta & now & rest & H & ->). destruct H; simpl; eauto. Qed.
Lemma signed_unique J te r c c' tr : signed_in J te r c tr -> signed_in J te r c' tr -> c = c'.
Proof.
  intros H H'. apply signed_head in H, H'. destruct H as (cid & t & ->), H' as (cid' & t' & E).
  apply (f_equal (map client_ans)) in E. injection E as _ E _. exact E.
Qed.

(** Where the events of a grant are in the run of the endpoint. *)
Lemma grant_run J te r c tr x h : exec (token_handler J te r) tr x -> registered te (form_value r "grant_type") h ->
  signed_in J te r c tr ->
  (exists e, In e tr /\ grant_op (ev_op e) = true) ->
  (exists now th y, exec (h r c now) th y /\ (forall e, In e tr -> grant_op (ev_op e) = true -> In e th) /\
    forall err, http_ops th = [] -> y = Done (inr (simple_oerr err)) -> http_ops tr = bare_refusal te err).
Proof.
  intros He HR HS (e & HI & Ho).
  destruct (token_handler_cases _ _ _ _ _ He) as [HX|(h' & c' & ta & tg & HG)].
  - exfalso. destruct HX as [(_ & _ & H)|[(_ & _ & H)|(_ & _ & H & _)]].
    + apply (in_map ev_op) in HI. change (In (ev_op e) (ops tr)) in HI. rewrite H in HI.
      destruct HI as [E|[E|[]]]; rewrite <- E in Ho; discriminate.
    + apply refused_ops in H. apply (proj1 H) in HI. congruence.
    + subst. destruct HI.
  - destruct HG as (_ & _ & HR' & HA & _ & Hg & ->).
    assert (h' = h) as -> by (eapply registered_fun; eauto).
    pose proof (authenticated_ops _ _ _ _ _ HA) as HO.
    destruct (execute_grant_cases _ _ _ _ _ _ Hg) as (now & HX).
    assert (c' = c) as ->.
    { eapply signed_unique; [|exact HS]. exists ta, now.
      destruct HX as [(th & rs & _ & _ & l & -> & _)|[(th & er & _ & _ & l & -> & _)|(th & _ & _ & ->)]]; eauto. }
    assert (HB : forall l, data_calls l = [] -> forall e, In e l -> grant_op (ev_op e) = true -> False).
    { intros l Hl e' H1 H2. assert (X : In e' (data_calls l)) by (apply filter_In; split; [exact H1|destruct e' as [o a]; destruct o; try discriminate; reflexivity]).
      rewrite Hl in X. exact X. }
    assert (HA' : forall e, In e ta -> grant_op (ev_op e) = true -> False).
    { intros e' H1 H2. destruct HO as (_ & _ & HO & _). apply HO in H1. congruence. }
    exists now. destruct HX as [(th & rs & H1 & H2 & l & -> & H3 & _)|[(th & er & H1 & H2 & l & -> & H3 & _ & H4 & _)|(th & H1 & _ & ->)]].
    + exists th, (Done (inl rs)). split; [exact H1|]. split.
      * intros e' HI' Ho'. apply in_app_or in HI'. destruct HI' as [HI'|HI']; [destruct (HA' _ HI' Ho')|].
        destruct HI' as [<-|HI']; [discriminate|]. apply in_app_or in HI'. destruct HI' as [HI'|HI']; [exact HI'|].
        destruct (HB _ H3 _ HI' Ho').
      * discriminate.
    + exists th, (Done (inr er)). split; [exact H1|]. split.
      * intros e' HI' Ho'. apply in_app_or in HI'. destruct HI' as [HI'|HI']; [destruct (HA' _ HI' Ho')|].
        destruct HI' as [<-|HI']; [discriminate|]. apply in_app_or in HI'. destruct HI' as [HI'|HI']; [exact HI'|].
        destruct (HB _ H3 _ HI' Ho').
      * intros err Ht E. injection E as ->. unfold http_ops, ops in *. rewrite map_app, filter_app. cbn [map filter ev_op is_http].
        rewrite map_app, filter_app, Ht, H4.
        assert (X : filter is_http (map ev_op ta) = []).
        { exact (proj1 HO). }
        rewrite X. reflexivity.
    + exists th, Panicked. split; [exact H1|]. split; [|discriminate].
      intros e' HI' Ho'. apply in_app_or in HI'. destruct HI' as [HI'|HI']; [destruct (HA' _ HI' Ho')|].
      destruct HI' as [<-|HI']; [discriminate|exact HI'].
Qed.

Lemma nothing_in r c tr th : (forall e, In e tr -> grant_op (ev_op e) = true -> In e th) -> nothing_yours r c tr -> nothing_yours r c th.
Proof.
  intros H [y H1|s y H1 H2|s i H1 H2 H3].
  - eapply ny_code. apply H; [exact H1|reflexivity].
  - eapply ny_withdrawn; apply H; eauto.
  - eapply ny_others; [apply H; eauto|apply H; eauto|exact H3].
Qed.
Lemma no_refresh_in r c tr th : (forall e, In e tr -> grant_op (ev_op e) = true -> In e th) -> no_refresh r c tr -> no_refresh r c th.
Proof.
  intros H [y H1|s y H1 H2|s i H1 H2 H3].
  - eapply nr_token. apply H; [exact H1|reflexivity].
  - eapply nr_withdrawn; apply H; eauto.
  - eapply nr_others; [apply H; eauto|apply H; eauto|exact H3].
Qed.

Lemma code_answer J te r c tr x : exec (token_handler J te r) tr x ->
  registered te (form_value r "grant_type") (authorization_code J) -> signed_in J te r c tr -> nothing_yours r c tr ->
  http_ops tr = bare_refusal te EInvalidGrant.
Proof.
  intros He HR HS HN.
  destruct (grant_run _ _ _ _ _ _ _ He HR HS) as (now & th & y & H1 & H2 & H3).
  { destruct HN as [y H1|s y H1 H2|s i H1 H2 H3]; eexists; (split; [exact H1|reflexivity]). }
  apply H3; [|exact (code_refusal _ _ _ _ _ _ H1 (nothing_in _ _ _ _ H2 HN))].
  exact (proj1 (wp_exec _ _ _ _ _ (authorization_code_wp J r c now) H1)).
Qed.
Lemma refresh_answer J te r c tr x : exec (token_handler J te r) tr x ->
  registered te (form_value r "grant_type") refresh_token -> signed_in J te r c tr -> no_refresh r c tr ->
  http_ops tr = bare_refusal te EInvalidGrant.
Proof.
  intros He HR HS HN.
  destruct (grant_run _ _ _ _ _ _ _ He HR HS) as (now & th & y & H1 & H2 & H3).
  { destruct HN as [y H1|s y H1 H2|s i H1 H2 H3]; eexists; (split; [exact H1|reflexivity]). }
  apply H3; [|exact (refresh_refusal _ _ _ _ _ H1 (no_refresh_in _ _ _ _ H2 HN))].
  exact (proj1 (wp_exec _ _ _ _ _ (refresh_token_wp r c now) H1)).
Qed.
