(** * Bounds on what each entry point does. *)
From Coq Require Import Lia.
From Verif Require Import WpTac Sha Utils OAuthError Assertion IdToken Grants TokenEndpoint AuthzResponse AuthzEndpoint
  ResourceProtector TokenSpec TokenFacts BoundSpec Bound SysSpec.

Ltac bounded := repeat mstep.
Ltac grant_bounded :=
  cbv beta delta [authorization_code refresh_token password_grant client_credentials jwt_grant pkce_check code_id_token
    direct_tail jwt_parse grant_keyf handle_assertion_error with_id dcheck echeck zcheck refuse]; cbv zeta; bounded.

Definition grant_bound (P : op -> bool) (n : nat) : Prop :=
  forall J h r c now, bundled J h -> most P n (h r c now).

Lemma grant_data : grant_bound is_data 5.
Proof. intros J h r c now []; grant_bounded. Qed.
Lemma grant_token : grant_bound makes_token 1.
Proof. intros J h r c now []; grant_bounded. Qed.
Lemma grant_session : grant_bound makes_session 0.
Proof. intros J h r c now []; grant_bounded. Qed.
Lemma grant_info : grant_bound makes_info 1.
Proof. intros J h r c now []; grant_bounded. Qed.
Lemma grant_disable : grant_bound ends_session 1.
Proof. intros J h r c now []; grant_bounded. Qed.
Lemma grant_log : grant_bound is_log 2.
Proof. intros J h r c now []; grant_bounded. Qed.

Ltac client_bounded :=
  cbv beta delta [validate_by_secret validate_by_assertion te_fail_client te_fail_auth te_fail set_common_headers jwt_parse
    te_keyf handle_assertion_error with_id dcheck echeck]; cbv zeta; bounded.

(* Authentication: [n]; afterwards the grant, [m]; [k] for the log entries of the
   endpoint itself. *)
Lemma token_most P n m k J te r :
  only_bundled J te -> grant_bound P m ->
  (forall gt cid sec b, most P n (validate_by_secret te r gt cid sec b)) ->
  (forall ca, most P n (validate_by_assertion J te ca)) ->
  (forall o, is_log o = false -> is_data o = false -> P o = false) ->
  (if P (OLog LDebug MissingParam []) then k = 1%nat /\ forall l e a, P (OLog l e a) = true
   else k = 0%nat /\ forall l e a, P (OLog l e a) = false) ->
  most P (n + (m + k)) (token_handler J te r).
Proof.
  intros HB HG HS HA HQ HL.
  assert (L : forall A l e a (p : unit -> prog A) j, (forall x, most P j (p x)) -> most P (j + k) (bind (logm l e a) p)).
  { intros A l e a p j Hp. unfold logm, call. cbn [bind].
    destruct (P (OLog LDebug MissingParam [])); destruct HL as [-> HL].
    - rewrite Nat.add_comm. apply most_hit; [apply HL|exact Hp].
    - rewrite Nat.add_0_r. apply most_miss; [apply HL|exact Hp]. }
  assert (V : forall A o (f : ans o -> prog A) j, is_log o = false -> is_data o = false ->
    (forall x, most P j (f x)) -> most P j (Vis o f)).
  { intros. apply most_miss; auto. }
  assert (F : forall e j, most P j (te_fail te e)).
  { intros e j. cbv beta delta [te_fail set_common_headers]. unfold call. cbn [bind].
    repeat (apply V; [reflexivity|reflexivity|intros]); exact I. }
  assert (FA : forall e j, most P j (te_fail_auth te e)).
  { intros e j. cbv beta delta [te_fail_auth set_common_headers]. unfold call. cbn [bind].
    repeat (apply V; [reflexivity|reflexivity|intros]); exact I. }
  assert (X : forall c h, bundled J h -> most P (m + k) (execute_grant te r c h)).
  { intros c h Hh. unfold execute_grant, call at 1. cbn [bind]. apply V; [reflexivity|reflexivity|intros now].
    apply most_bind; [apply (HG J); exact Hh|]. intros [rs|e]; [|apply F].
    apply (L _ _ _ _ (fun _ => te_success rs) 0%nat). intros _. unfold te_success, set_common_headers, call. cbn [bind].
    repeat (apply V; [reflexivity|reflexivity|intros]); exact I. }
  assert (W : forall A l e a (p : unit -> prog A), (forall x, most P 0 (p x)) -> most P (n + (m + k)) (bind (logm l e a) p)).
  { intros A l e a p Hp. apply (most_le _ _ (0 + k)%nat); [lia|]. apply L. exact Hp. }
  unfold token_handler. cbv zeta.
  destruct (negb _). { apply W. intros _. unfold call. apply V; [reflexivity|reflexivity|intros]. exact I. }
  destruct (form_value r "grant_type" =s? ""). { apply W. intros _. apply F. }
  destruct (find_handler _ _) as [h|] eqn:EH; [|apply W; intros _; apply F].
  assert (Hh : bundled J h).
  { apply find_handler_some in EH. destruct EH as (l1 & l2 & EH & _). apply (HB (form_value r "grant_type")).
    rewrite EH. apply in_or_app. right. left. reflexivity. }
  destruct (find_client_credential te r) as [[[cid sec] b]|].
  - apply most_bind; [apply HS|]. intros [c|]; [apply X; exact Hh|exact I].
  - destruct (if te_accept_assertion te then _ else _) as [ca|]; [|apply W; intros _; apply FA].
    apply most_bind; [apply HA|]. intros [c|]; [apply X; exact Hh|exact I].
Qed.

Ltac token_bound n m k :=
  intros; apply (token_most _ n m k);
  [assumption|eauto using grant_data, grant_token, grant_session, grant_info, grant_disable, grant_log
  |intros; client_bounded|intros; client_bounded
  |intros []; intros; try reflexivity; simpl in *; congruence
  |simpl; split; reflexivity].

Lemma token_data J te r : only_bundled J te -> most is_data 8 (token_handler J te r).
Proof. token_bound 3%nat 5%nat 0%nat. Qed.
Lemma token_token J te r : only_bundled J te -> most makes_token 1 (token_handler J te r).
Proof. token_bound 0%nat 1%nat 0%nat. Qed.
Lemma token_session J te r : only_bundled J te -> most makes_session 0 (token_handler J te r).
Proof. token_bound 0%nat 0%nat 0%nat. Qed.
Lemma token_info J te r : only_bundled J te -> most makes_info 1 (token_handler J te r).
Proof. token_bound 0%nat 1%nat 0%nat. Qed.
Lemma token_disable1 J te r : only_bundled J te -> most ends_session 1 (token_handler J te r).
Proof. token_bound 0%nat 1%nat 0%nat. Qed.
Lemma token_log J te r : only_bundled J te -> most is_log 5 (token_handler J te r).
Proof. token_bound 2%nat 2%nat 1%nat. Qed.
