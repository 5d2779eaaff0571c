(** * Bounds on what the authorization endpoint and the resource protector do. *)
From Coq Require Import Lia.
From Verif Require Import WpTac Sha Utils OAuthError Assertion IdToken Grants TokenEndpoint AuthzResponse AuthzEndpoint
  ResourceProtector TokenSpec TokenFacts BoundSpec Bound SysSpec.

Ltac bounded := repeat mstep.

(* The response itself: no data-layer calls, no log entries. *)
Definition plain (P : op -> bool) : Prop := forall o, is_log o = false -> is_data o = false -> P o = false.
Lemma send_most P E k uri params n : plain P -> most P n (rh_success E k uri params).
Proof.
  intros H. destruct k; unfold rh_success, call; cbn [bind]; try (destruct (e_url_ok E uri); [|exact I]);
  repeat (apply most_miss; [apply H; reflexivity|intros ?]); exact I.
Qed.
Lemma send_bind {A} P E k uri params (f : unit -> prog A) n : plain P -> (forall x, most P n (f x)) ->
  most P n (bind (rh_success E k uri params) f).
Proof. intros H HF. apply (most_bind P _ f 0 n); [apply send_most; exact H|exact HF]. Qed.
Lemma error_most P E req typ desc n : plain P -> most P n (answer_error E req typ desc).
Proof. intros H. unfold answer_error, rh_error. apply send_bind; [exact H|intros; exact I]. Qed.
Lemma early_most {A} P E mode ruri typ desc state n : plain P -> most P n (@early A E mode ruri typ desc state).
Proof. intros H. unfold early, rh_error. apply send_bind; [exact H|intros; exact I]. Qed.

Lemma early_bind {A B} P E mode ruri typ desc state (f : option A -> prog B) n : plain P -> (forall x, most P n (f x)) ->
  most P n (bind (early E mode ruri typ desc state) f).
Proof. intros H HF. apply (most_bind P _ f 0 n); [apply early_most; exact H|exact HF]. Qed.

Ltac plain0 := let o := fresh in intros o; destruct o; intros; try reflexivity; simpl in *; congruence.
Lemma plain_data : plain is_data. Proof. plain0. Qed.
Lemma plain_token : plain makes_token. Proof. plain0. Qed.
Lemma plain_session : plain makes_session. Proof. plain0. Qed.
Lemma plain_info : plain makes_info. Proof. plain0. Qed.
Lemma plain_disable : plain ends_session. Proof. plain0. Qed.
Lemma plain_log : plain is_log. Proof. plain0. Qed.
Ltac plain1 := first [exact plain_data|exact plain_token|exact plain_session|exact plain_info|exact plain_disable|exact plain_log].

Ltac astep :=
  lazymatch goal with
  | |- most _ _ (answer_error _ _ _ _) => apply error_most; plain1
  | |- most _ _ (early _ _ _ _ _ _) => apply early_most; plain1
  | |- most _ _ (callback_failed _ _ _) => unfold callback_failed
  | |- most _ _ (bind (early _ _ _ _ _ _) _) => apply early_bind; [plain1|intros ?]
  | |- most _ _ (bind (rh_success _ _ _ _) _) => apply send_bind; [plain1|intros ?]
  | |- most _ _ (bind (rh_error _ _ _ _ _ _) _) => unfold rh_error
  | |- most _ _ (match (if ?b then _ else _) with _ => _ end) => destruct b
  | |- _ => mstep
  end.
Ltac authz := cbv zeta; repeat astep.

Definition complete_bound (P : op -> bool) (n : nat) : Prop :=
  forall E pol info req, most P n (complete E pol info req).
Ltac complete_go := intros E pol info req; unfold complete, complete_code, complete_implicit, complete_hybrid; authz.
Lemma complete_data : complete_bound is_data 4. Proof. complete_go. Qed.
Lemma complete_token : complete_bound makes_token 1. Proof. complete_go. Qed.
Lemma complete_session : complete_bound makes_session 1. Proof. complete_go. Qed.
Lemma complete_info : complete_bound makes_info 0. Proof. complete_go. Qed.
Lemma complete_disable : complete_bound ends_session 0. Proof. complete_go. Qed.
Lemma complete_log : complete_bound is_log 1. Proof. complete_go. Qed.

(** HandleRequest up to the decision; [k] is what completing takes. *)
Ltac cstep L :=
  lazymatch goal with
  | |- most _ _ (complete _ _ _ _) => eapply most_le; [|apply L]; lia
  | |- most _ _ (bind (consent_reusable _ _ _) _) => unfold consent_reusable
  | |- _ => astep
  end.
Ltac after_go L :=
  let HT := fresh "HT" in let HC := fresh "HC" in let HM := fresh "HM" in
  intros E pol c req mas;
  lazymatch goal with |- most ?P ?n _ =>
    assert (HT : most P n (none_tail E pol req)) by (unfold none_tail; cbv zeta; repeat cstep L);
    assert (HC : most P n (hr_consent E pol c req)) by (unfold hr_consent, show_consent; cbv zeta; repeat cstep L);
    assert (HM : most P n (hr_login E pol c req mas))
      by (unfold hr_login, hr_max_age; cbv zeta; repeat lazymatch goal with
          | |- most _ _ (hr_consent _ _ _ _) => eapply most_le; [|exact HC]; lia
          | _ => cstep L end);
    unfold hr_after, hr_none, hr_session, none_session, none_match, jwt_parse; cbv zeta;
    repeat lazymatch goal with
    | |- most _ _ (none_tail _ _ _) => eapply most_le; [|exact HT]; lia
    | |- most _ _ (hr_login _ _ _ _ _) => eapply most_le; [|exact HM]; lia
    | _ => cstep L end
  end.
Definition after_bound (P : op -> bool) (n : nat) : Prop :=
  forall E pol c req mas, most P n (hr_after E pol c req mas).
Lemma after_data : after_bound is_data 5. Proof. after_go complete_data. Qed.
Lemma after_token : after_bound makes_token 1. Proof. after_go complete_token. Qed.
Lemma after_session : after_bound makes_session 1. Proof. after_go complete_session. Qed.
Lemma after_info : after_bound makes_info 0. Proof. after_go complete_info. Qed.
Lemma after_disable : after_bound ends_session 0. Proof. after_go complete_disable. Qed.
Lemma after_log : after_bound is_log 2. Proof. after_go complete_log. Qed.

Definition client_bound (P : op -> bool) (n : nat) : Prop := forall r, most P n (hr_client r).
Ltac client_go := intros r; unfold hr_client; authz.
Lemma client_data : client_bound is_data 1. Proof. client_go. Qed.
Lemma client_token : client_bound makes_token 0. Proof. client_go. Qed.
Lemma client_session : client_bound makes_session 0. Proof. client_go. Qed.
Lemma client_info : client_bound makes_info 0. Proof. client_go. Qed.
Lemma client_disable : client_bound ends_session 0. Proof. client_go. Qed.
Lemma client_log : client_bound is_log 1. Proof. client_go. Qed.


Definition mode_bound (P : op -> bool) (n : nat) : Prop := forall E pol r u s, most P n (hr_mode E pol r u s).
Ltac mode_go := intros E pol r u s; unfold hr_mode; authz.
Lemma mode_data : mode_bound is_data 0. Proof. mode_go. Qed.
Lemma mode_token : mode_bound makes_token 0. Proof. mode_go. Qed.
Lemma mode_session : mode_bound makes_session 0. Proof. mode_go. Qed.
Lemma mode_info : mode_bound makes_info 0. Proof. mode_go. Qed.
Lemma mode_disable : mode_bound ends_session 0. Proof. mode_go. Qed.
Lemma mode_log : mode_bound is_log 2. Proof. mode_go. Qed.

Definition offline_bound (P : op -> bool) (n : nat) : Prop := forall pol f p s, most P n (offline_scope pol f p s).
Ltac offline_go := intros pol f p s; unfold offline_scope; authz.
Lemma offline_data : offline_bound is_data 0. Proof. offline_go. Qed.
Lemma offline_token : offline_bound makes_token 0. Proof. offline_go. Qed.
Lemma offline_session : offline_bound makes_session 0. Proof. offline_go. Qed.
Lemma offline_info : offline_bound makes_info 0. Proof. offline_go. Qed.
Lemma offline_disable : offline_bound ends_session 0. Proof. offline_go. Qed.
Lemma offline_log : offline_bound is_log 1. Proof. offline_go. Qed.

Definition params_bound (P : op -> bool) (n : nat) : Prop :=
  forall E pol r c cid u s f m rt, most P n (hr_params E pol r c cid u s f m rt).
Ltac params_go L k :=
  intros E pol r c cid u s f m rt; unfold hr_params; cbv zeta;
  repeat lazymatch goal with
  | |- most _ ?n (bind (offline_scope _ _ _ _) _) =>
      apply (most_bind _ _ _ k (n - k)); [apply L|intros ?]; cbn [Nat.sub]
  | _ => astep
  end.
Lemma params_data : params_bound is_data 0. Proof. params_go offline_data 0%nat. Qed.
Lemma params_token : params_bound makes_token 0. Proof. params_go offline_token 0%nat. Qed.
Lemma params_session : params_bound makes_session 0. Proof. params_go offline_session 0%nat. Qed.
Lemma params_info : params_bound makes_info 0. Proof. params_go offline_info 0%nat. Qed.
Lemma params_disable : params_bound ends_session 0. Proof. params_go offline_disable 0%nat. Qed.
Lemma params_log : params_bound is_log 3. Proof. params_go offline_log 1%nat. Qed.

Lemma handle_most P a b c d E pol r :
  client_bound P a -> mode_bound P b -> params_bound P c -> after_bound P d ->
  most P (a + (b + (c + d))) (handle_request E pol r).
Proof.
  intros HA HB HC HD. unfold handle_request.
  apply most_bind; [apply HA|]. intros [[[cl cid] u]|]; [|exact I].
  apply most_bind; [apply HB|]. intros [[[f m] rt]|]; [|exact I].
  apply most_bind; [apply HC|]. intros [req|]; [|exact I]. apply HD.
Qed.

Lemma handle_within E pol r tr o : exec (handle_request E pol r) tr o -> work_within 6 1 1 0 0 8 tr.
Proof.
  intros He. unfold work_within.
  pose proof (most_exec _ _ _ _ _ (handle_most _ _ _ _ _ E pol r client_data mode_data params_data after_data) He).
  pose proof (most_exec _ _ _ _ _ (handle_most _ _ _ _ _ E pol r client_token mode_token params_token after_token) He).
  pose proof (most_exec _ _ _ _ _ (handle_most _ _ _ _ _ E pol r client_session mode_session params_session after_session) He).
  pose proof (most_exec _ _ _ _ _ (handle_most _ _ _ _ _ E pol r client_info mode_info params_info after_info) He).
  pose proof (most_exec _ _ _ _ _ (handle_most _ _ _ _ _ E pol r client_disable mode_disable params_disable after_disable) He).
  pose proof (most_exec _ _ _ _ _ (handle_most _ _ _ _ _ E pol r client_log mode_log params_log after_log) He).
  simpl in *. auto 10.
Qed.

Definition completing_bound (P : op -> bool) (n : nat) : Prop := forall E pol, most P n (complete_request E pol).
Ltac completing_go L := intros E pol; unfold complete_request; cbv zeta; repeat cstep L.
Lemma completing_data : completing_bound is_data 5. Proof. completing_go complete_data. Qed.
Lemma completing_token : completing_bound makes_token 1. Proof. completing_go complete_token. Qed.
Lemma completing_session : completing_bound makes_session 1. Proof. completing_go complete_session. Qed.
Lemma completing_info : completing_bound makes_info 1. Proof. completing_go complete_info. Qed.
Lemma completing_disable : completing_bound ends_session 0. Proof. completing_go complete_disable. Qed.
Lemma completing_log : completing_bound is_log 1. Proof. completing_go complete_log. Qed.
Lemma completing_within E pol tr o : exec (complete_request E pol) tr o -> work_within 5 1 1 1 0 1 tr.
Proof.
  intros He. unfold work_within.
  pose proof (most_exec _ _ _ _ _ (completing_data E pol) He).
  pose proof (most_exec _ _ _ _ _ (completing_token E pol) He).
  pose proof (most_exec _ _ _ _ _ (completing_session E pol) He).
  pose proof (most_exec _ _ _ _ _ (completing_info E pol) He).
  pose proof (most_exec _ _ _ _ _ (completing_disable E pol) He).
  pose proof (most_exec _ _ _ _ _ (completing_log E pol) He).
  auto 10.
Qed.

Definition cancel_bound (P : op -> bool) (n : nat) : Prop := forall E, most P n (cancel_request E).
Ltac cancel_go := intros E; unfold cancel_request; authz.
Lemma cancel_data : cancel_bound is_data 0. Proof. cancel_go. Qed.
Lemma cancel_token : cancel_bound makes_token 0. Proof. cancel_go. Qed.
Lemma cancel_session : cancel_bound makes_session 0. Proof. cancel_go. Qed.
Lemma cancel_info : cancel_bound makes_info 0. Proof. cancel_go. Qed.
Lemma cancel_disable : cancel_bound ends_session 0. Proof. cancel_go. Qed.
Lemma cancel_log : cancel_bound is_log 1. Proof. cancel_go. Qed.
Lemma cancel_within E tr o : exec (cancel_request E) tr o -> work_within 0 0 0 0 0 1 tr.
Proof.
  intros He. unfold work_within.
  pose proof (most_exec _ _ _ _ _ (cancel_data E) He).
  pose proof (most_exec _ _ _ _ _ (cancel_token E) He).
  pose proof (most_exec _ _ _ _ _ (cancel_session E) He).
  pose proof (most_exec _ _ _ _ _ (cancel_info E) He).
  pose proof (most_exec _ _ _ _ _ (cancel_disable E) He).
  pose proof (most_exec _ _ _ _ _ (cancel_log E) He).
  auto 10.
Qed.

Definition scopes_bound (P : op -> bool) (n : nat) : Prop := forall rp r m, most P n (validate_with_scopes rp r m).
Definition plain_bound (P : op -> bool) (n : nat) : Prop := forall rp r, most P n (validate rp r).
Ltac validate_go := intros rp r; unfold validate, dcheck, unauthorize, call, logm; cbv zeta; cbn [bind]; authz.
Lemma validate_data : plain_bound is_data 2. Proof. validate_go. Qed.
Lemma validate_token : plain_bound makes_token 0. Proof. validate_go. Qed.
Lemma validate_session : plain_bound makes_session 0. Proof. validate_go. Qed.
Lemma validate_info : plain_bound makes_info 0. Proof. validate_go. Qed.
Lemma validate_disable : plain_bound ends_session 0. Proof. validate_go. Qed.
Lemma validate_log : plain_bound is_log 1. Proof. validate_go. Qed.
Lemma scopes_most P n : plain P -> plain_bound P n -> scopes_bound P n.
Proof.
  intros H HB rp r m. unfold validate_with_scopes. rewrite <- (Nat.add_0_r n).
  apply most_bind; [apply HB|]. intros [ok r']. destruct ok; simpl negb; cbv iota; [|exact I].
  destruct (sm_get (r_path r') m) as [l|]; [|exact I].
  destruct (scope_include_all _ l) as [[] missing]; [exact I|].
  unfold unauthorize, call; cbn [bind]. repeat (apply most_miss; [apply H; reflexivity|intros ?]); exact I.
Qed.
Lemma validate_within rp r tr o : exec (validate rp r) tr o -> work_within 2 0 0 0 0 1 tr.
Proof.
  intros He. unfold work_within.
  pose proof (most_exec _ _ _ _ _ (validate_data rp r) He).
  pose proof (most_exec _ _ _ _ _ (validate_token rp r) He).
  pose proof (most_exec _ _ _ _ _ (validate_session rp r) He).
  pose proof (most_exec _ _ _ _ _ (validate_info rp r) He).
  pose proof (most_exec _ _ _ _ _ (validate_disable rp r) He).
  pose proof (most_exec _ _ _ _ _ (validate_log rp r) He).
  auto 10.
Qed.
Lemma scopes_within rp r m tr o : exec (validate_with_scopes rp r m) tr o -> work_within 2 0 0 0 0 1 tr.
Proof.
  intros He. unfold work_within.
  pose proof (most_exec _ _ _ _ _ (scopes_most _ _ plain_data validate_data rp r m) He).
  pose proof (most_exec _ _ _ _ _ (scopes_most _ _ plain_token validate_token rp r m) He).
  pose proof (most_exec _ _ _ _ _ (scopes_most _ _ plain_session validate_session rp r m) He).
  pose proof (most_exec _ _ _ _ _ (scopes_most _ _ plain_info validate_info rp r m) He).
  pose proof (most_exec _ _ _ _ _ (scopes_most _ _ plain_disable validate_disable rp r m) He).
  pose proof (most_exec _ _ _ _ _ (scopes_most _ _ plain_log validate_log rp r m) He).
  auto 10.
Qed.
