(** * Proofs about the authorization endpoint: answers and completion. *)
From Coq Require Import Lia.
From Verif Require Import WpTac Sha Utils IdToken AuthzResponse AuthzEndpoint TokenSpec AuthzSpec
  UtilsFacts ShaFacts GrantFacts.

(** ** Histories *)

Lemma wp_frame {A} (G0 G : guard) (Q0 Q : post A) h (p : prog A) :
  wp G0 Q0 [] p -> (forall t o, G0 t o -> G (h ++ t)%list o) ->
  (forall t r, Q0 t r -> Q (h ++ t)%list r) -> wp G Q h p.
Proof.
  intros H HG HQ.
  assert (HH : forall p t, wp G0 Q0 t p -> wp G Q (h ++ t)%list p).
  { induction p0 as [a| |o k IH]; intros t Ht; simpl in *.
    - auto.
    - auto.
    - destruct Ht as [H1 H2]. split; [auto|]. intros x. rewrite <- app_assoc. apply IH, H2. }
  specialize (HH p [] H). rewrite app_nil_r in HH. exact HH.
Qed.

Lemma segment_app l h t : segment l h -> segment l (h ++ t)%list.
Proof. intros (a & b & ->). exists a, (b ++ t)%list. rewrite <- !app_assoc. reflexivity. Qed.
Lemma segment_app_r l h t : segment l h -> segment l (t ++ h)%list.
Proof. intros (a & b & ->). exists (t ++ a)%list, b. rewrite <- !app_assoc. reflexivity. Qed.
Lemma segment_end l a : segment l (a ++ l)%list.
Proof. exists a, []. rewrite app_nil_r. reflexivity. Qed.

Lemma http_ops_app a b : http_ops (a ++ b) = (http_ops a ++ http_ops b)%list.
Proof. unfold http_ops, ops. rewrite map_app, filter_app. reflexivity. Qed.

(** ** Parameters *)

Lemma given_spec s v : given s = Some v <-> v = s /\ s <> "".
Proof.
  unfold given. destruct (string_dec s ""); split; intros H; try discriminate.
  - destruct H; congruence.
  - injection H as <-. auto.
  - destruct H as [-> _]. reflexivity.
Qed.

(** [real l]: the parameters of [l] that have a value. *)
Fixpoint real (l : list (string * option string)) : kvs :=
  match l with
  | [] => []
  | (k, Some v) :: r => (k, v) :: real r
  | (k, None) :: r => real r
  end.

Lemma real_in l k v : In (k, v) (real l) <-> In (k, Some v) l.
Proof.
  induction l as [|[k' [v'|]] l IH]; simpl; [tauto| |].
  - rewrite IH. split; intros [H|H]; auto; left; congruence.
  - rewrite IH. split; [auto|]. intros [H|H]; [congruence|auto].
Qed.
Lemma real_keys l k : In k (map fst (real l)) -> In k (map fst l).
Proof. induction l as [|[k' [v'|]] l IH]; simpl; auto; intros [H|H]; auto. Qed.
Lemma real_nodup l : NoDup (map fst l) -> NoDup (map fst (real l)).
Proof.
  induction l as [|[k' [v'|]] l IH]; simpl; intros H; auto; inversion H; subst; auto.
  constructor; auto. intros HI. apply real_keys in HI. auto.
Qed.
Lemma holds_real l : NoDup (map fst l) -> holds (real l) l.
Proof. intros H. split; [apply real_nodup; auto|]. intros k v. apply real_in. Qed.

Lemma given_eqb k s : (if s =s? "" then [] else [(k, s)]) = real [(k, given s)].
Proof.
  unfold given. destruct (string_dec s "") as [->|H]; simpl; auto.
  destruct (s =s? "") eqn:E; sdestruct; [congruence|reflexivity].
Qed.
Lemma real_app a b : real (a ++ b) = (real a ++ real b)%list.
Proof. induction a as [|[k [v|]] a IH]; simpl; auto. rewrite IH; auto. Qed.

(** ** Sending *)

Definition free (G : guard) : Prop := forall h o,
  (is_http o = true \/ (exists m, o = OMapOrder m) \/ (exists a b c, o = OLog a b c)) -> G h o.

Lemma wp_send {B} (G : guard) (Q : post B) E mode uri params (f : unit -> prog B) h :
  free G ->
  (forall ta, sent mode uri params ta -> wp G Q (h ++ ta)%list (f tt)) ->
  Q h Panicked ->
  wp G Q h (bind (rh_success E (handler_for_mode mode) uri params) f).
Proof.
  intros HF HK HP. unfold handler_for_mode, rh_success.
  assert (HR : forall k, (k = RFragment /\ mode = "fragment" \/
                          k = RQuery /\ mode <> "form_post" /\ mode <> "fragment") ->
     wp G Q h (bind (if e_url_ok E uri then call (ORedirect (location k uri params)) else Panic) f)).
  { intros k Hk. destruct (e_url_ok E uri); [|exact HP].
    unfold call. cbn [bind]. apply wp_vis; [apply HF; auto|]. intros x. cbn beta. destruct x.
    apply HK. destruct Hk as [[-> H]|[-> [H1 H2]]]; [apply sent_fragment|apply sent_query]; auto. }
  destruct (mode =s? "query") eqn:E1; sdestruct.
  { apply HR. right. subst. repeat split; discriminate. }
  destruct (mode =s? "fragment") eqn:E2; sdestruct; [apply HR; auto|].
  destruct (mode =s? "form_post") eqn:E3; sdestruct; [|apply HR; auto].
  unfold call. cbn [bind].
  apply wp_vis; [apply HF; right; left; eauto|]. intros [ordered HO]. cbn beta.
  repeat (apply wp_vis; [apply HF; left; reflexivity|]; intros []; cbn beta).
  rewrite <- !app_assoc. cbn [app proj1_sig]. apply HK. apply sent_form. assumption.
Qed.

Lemma sent_http mode uri params ta : sent mode uri params ta -> http_ops ta <> [].
Proof. intros []; discriminate. Qed.

Definition done_error (req : arequest) (typ : string) (t : list event) : Prop :=
  error_sent (rq_mode req) (rq_redirect req) (rq_state req) typ t.

Lemma error_params_holds typ desc state :
  holds (error_params typ desc state)
        [("error", Some typ); ("error_description", given desc); ("state", given state)].
Proof.
  unfold error_params. rewrite (given_eqb "error_description" desc), (given_eqb "state" state).
  assert (H : (("error", typ) :: real [("error_description", given desc)] ++ real [("state", given state)])%list
     = real [("error", Some typ); ("error_description", given desc); ("state", given state)])
   by (simpl; destruct (given desc); reflexivity). rewrite H.
  apply holds_real. simpl. repeat (constructor; [simpl; intuition discriminate|]). constructor.
Qed.

Lemma wp_answer_error (G : guard) (Q : post bool) E req typ desc h :
  free G -> In typ error_types ->
  (forall t, (http_ops h = [] -> done_error req typ (h ++ t)%list) -> Q (h ++ t)%list (Done false)) ->
  Q h Panicked ->
  wp G Q h (answer_error E req typ desc).
Proof.
  intros HF HT HK HP. unfold answer_error, rh_error, kind_of. apply wp_send; auto.
  intros ta HS. apply wp_ret. apply HK. intros HH. exists desc, (error_params typ desc (rq_state req)).
  split; [|split; [auto|apply error_params_holds]]. exists h, ta. auto.
Qed.

(** ** ID tokens *)

Lemma sx_char_std s : sx_char B64Std s =
  nth (bits_value [x5 s; x4 s; x3 s; x2 s; x1 s; x0 s]) b64std_alphabet "="%char.
Proof. destruct s as [[] [] [] [] [] []]; reflexivity. Qed.

Lemma b64_std_rfc s : b64_encode B64Std s = rfc4648_std s.
Proof.
  induction s as [|a|a b|a b c s IH] using string_ind3.
  - reflexivity.
  - simpl b64_encode. rewrite !sx_char_std. destruct a. reflexivity.
  - simpl b64_encode. rewrite !sx_char_std. destruct a, b. reflexivity.
  - change (b64_encode B64Std (String a (String b (String c s)))) with
      (String (sx_char B64Std (sx_1 a)) (String (sx_char B64Std (sx_2 a b))
        (String (sx_char B64Std (sx_3 b c)) (String (sx_char B64Std (sx_4 c)) (b64_encode B64Std s))))).
    rewrite IH. unfold rfc4648_std.
    replace (String.length (String a (String b (String c s))) mod 3)%nat
      with (String.length s mod 3)%nat.
    2: { change (String.length (String a (String b (String c s)))) with (3 + String.length s)%nat.
         rewrite <- (Nat.mul_1_l 3) at 2. rewrite Nat.add_comm, Nat.mod_add; auto. }
    simpl list_ascii_of_string. simpl flat_map. rewrite groups_app24.
    cbv zeta. rewrite !sx_char_std. reflexivity.
Qed.

Lemma length_append a b : String.length (a ++ b) = (String.length a + String.length b)%nat.
Proof. induction a as [|x a IH]; simpl; auto. Qed.

Lemma has_suffix_spec suf s : has_suffix suf s = true <-> exists p, s = (p ++ suf)%string.
Proof.
  split.
  - induction s as [|a s IH]; cbn [has_suffix].
    + destruct ("" =s? suf) eqn:E; sdestruct; [|discriminate]. intros _. exists "". auto.
    + destruct (String a s =s? suf) eqn:E; sdestruct; [intros _; exists ""; auto|].
      intros H. destruct (IH H) as [p ->]. exists (String a p). reflexivity.
  - intros [p ->]. induction p as [|a p IH]; simpl.
    + destruct suf; cbn [has_suffix]; rewrite seqb_refl; reflexivity.
    + change (has_suffix suf (String a (p ++ suf)) = true). cbn [has_suffix].
      rewrite IH. destruct (_ =s? _); reflexivity.
Qed.

Lemma id_hash_spec alg t v : id_hash alg t = Some v <-> exists h, left_half alg t h /\ v = rfc4648_std h.
Proof.
  unfold id_hash, left_half. rewrite !b64_std_rfc.
  assert (X : forall p q a b, String.length a = 3%nat -> String.length b = 3%nat ->
              (p ++ a = q ++ b)%string -> a = b).
  { intros p. induction p as [|x p IH]; intros [|y q] a b HA HB H; simpl in H; auto.
    - subst a. simpl in HA. rewrite length_append in HA. lia.
    - subst b. simpl in HB. rewrite length_append in HB. lia.
    - injection H as _ H. eapply IH; eauto. }
  destruct (has_suffix "256" alg) eqn:E1.
  { apply has_suffix_spec in E1. destruct E1 as [p ->]. split.
    - intros H. injection H as <-. eexists. split; [left; eauto|reflexivity].
    - intros (h & [(q & _ & ->)|[(q & H & _)|(q & H & _)]] & ->); auto;
        apply X in H; try reflexivity; discriminate. }
  destruct (has_suffix "384" alg) eqn:E2.
  { apply has_suffix_spec in E2. destruct E2 as [p ->]. split.
    - intros H. injection H as <-. eexists. split; [right; left; eauto|reflexivity].
    - intros (h & [(q & H & _)|[(q & _ & ->)|(q & H & _)]] & ->); auto;
        apply X in H; try reflexivity; discriminate. }
  destruct (has_suffix "512" alg) eqn:E3.
  { apply has_suffix_spec in E3. destruct E3 as [p ->]. split.
    - intros H. injection H as <-. eexists. split; [right; right; eauto|reflexivity].
    - intros (h & [(q & H & _)|[(q & H & _)|(q & _ & ->)]] & ->); auto;
        apply X in H; try reflexivity; discriminate. }
  split; [discriminate|].
  intros (h & [(q & H & _)|[(q & H & _)|(q & H & _)]] & _); exfalso;
    assert (HE : exists p, alg = (p ++ _)%string) by (exists q; exact H);
    apply has_suffix_spec in HE; congruence.
Qed.

Lemma left_half_len alg t h : left_half alg t h ->
  String.length h = 16%nat \/ String.length h = 24%nat \/ String.length h = 32%nat.
Proof.
  intros [(p & _ & ->)|[(p & _ & ->)|(p & _ & ->)]]; rewrite substring_length; 
    rewrite ?sha256_length, ?sha384_length, ?sha512_length; auto; lia.
Qed.

Lemma rfc4648_std_nonempty s : s <> "" -> rfc4648_std s <> "".
Proof.
  intros H. rewrite <- b64_std_rfc. destruct s as [|a [|b [|c s]]]; simpl; congruence || discriminate.
Qed.

Lemma hash_claim_gen alg tok v :
  (if tok =s? "" then Some "" else id_hash alg tok) = Some v ->
  hash_claim alg (given tok) (GrantFacts.nonempty v).
Proof.
  destruct (tok =s? "") eqn:E; sdestruct.
  - intros H. injection H as <-. subst. unfold given. simpl. reflexivity.
  - intros H. unfold given. destruct (string_dec tok ""); [congruence|]. simpl.
    apply id_hash_spec in H. destruct H as (h & H1 & ->). exists h. split; auto.
    unfold nonempty. destruct (rfc4648_std h =s? "") eqn:E1; sdestruct; [|reflexivity].
    exfalso. revert E1. apply rfc4648_std_nonempty. intros ->. apply left_half_len in H1. simpl in H1. lia.
Qed.

Lemma hash_claim_code alg code v :
  id_hash alg code = Some v -> hash_claim alg (Some code) (GrantFacts.nonempty v).
Proof.
  intros H. apply id_hash_spec in H. destruct H as (h & H1 & ->). exists h. split; auto.
  unfold nonempty. destruct (rfc4648_std h =s? "") eqn:E1; sdestruct; [|reflexivity].
  exfalso. revert E1. apply rfc4648_std_nonempty. intros ->. apply left_half_len in H1. simpl in H1. lia.
Qed.

Lemma gen_implicit_spec J c iss aud sub nonce e at_ tok now idt :
  gen_implicit J (c_alg c) (c_key c) (c_kid c) iss aud sub nonce e at_ tok now = Some idt ->
  exists cs ah, hash_claim (c_alg c) (given tok) ah /\
    id_claims cs iss aud sub nonce (add64 now e) at_ now ah None /\ signed_for J c cs idt.
Proof.
  unfold gen_implicit. intros H.
  destruct (if tok =s? "" then Some "" else id_hash (c_alg c) tok) as [v|] eqn:E; [|discriminate].
  apply raw_gen_spec in H. destruct H as (cs & H1 & H2). exists cs, (nonempty v).
  split; [apply hash_claim_gen; auto|]. auto.
Qed.

Lemma gen_hybrid_spec J c iss aud sub nonce e at_ tok code now idt :
  gen_hybrid J (c_alg c) (c_key c) (c_kid c) iss aud sub nonce e at_ tok code now = Some idt ->
  exists cs ah ch, hash_claim (c_alg c) (given tok) ah /\ hash_claim (c_alg c) (Some code) ch /\
    id_claims cs iss aud sub nonce (add64 now e) at_ now ah ch /\ signed_for J c cs idt.
Proof.
  unfold gen_hybrid. intros H.
  destruct (if tok =s? "" then Some "" else id_hash (c_alg c) tok) as [v|] eqn:E; [|discriminate].
  destruct (id_hash (c_alg c) code) as [w|] eqn:E2; [|discriminate].
  apply raw_gen_spec in H. destruct H as (cs & H1 & H2). exists cs, (nonempty v), (nonempty w).
  split; [apply hash_claim_gen; auto|]. split; [apply hash_claim_code; auto|]. auto.
Qed.

(** ** Completing a request *)

Definition complete_post (E : env) (pol : policy) (info : option authinfo) (req : arequest) : post bool :=
  fun t r =>
  match r with
  | Done true => completed E pol info req t
  | Done false => done_error req "server_error" t \/
      (exists f, rq_flow req = Some f /\ f_type f = FDirectGrant /\ t = [])
  | Panicked => http_ops t = []
  end.

Definition complete_guard (pol : policy) (info : option authinfo) (req : arequest) : guard := fun h o =>
  match o with
  | OCreateSession i s => i = info /\ session_for pol req s h
  | OCreateToken i b => i = info /\ b = false
  | OFindClient cid => cid = rq_client req
  | OCreateCode | OAuthTime | OIssuer | ONow | OLog _ _ _ | OSetHeader _ _ | OStatus _ | OBody _
  | ORedirect _ | OMapOrder _ => True
  | _ => False
  end.

Lemma complete_guard_free pol info req : free (complete_guard pol info req).
Proof.
  intros h o [H|[[m ->]|(a & b & c & ->)]]; [|exact I|exact I]. destruct o; simpl in H; try discriminate; exact I.
Qed.

Ltac cstep :=
  lazymatch goal with
  | |- wp _ _ _ (answer_error _ _ _ _) =>
      apply wp_answer_error; [apply complete_guard_free|simpl; tauto|intros t Ht|reflexivity]
  | |- wp _ _ _ (callback_failed _ _ _) => unfold callback_failed
  | |- wp _ _ _ (bind (rh_success _ (kind_of _) _ _) _) =>
      unfold kind_of; apply wp_send; [apply complete_guard_free|intros ta HS|reflexivity]
  | |- wp _ _ _ (Vis _ _) => apply wp_vis; [try exact I; try reflexivity; try (split; reflexivity);
        try (split; [reflexivity|exists []; do 2 eexists; split; reflexivity])|intro; cbn beta]
  | _ => wp_step
  end.

Ltac nodup := cbn [map fst app]; repeat (apply NoDup_cons; [simpl; intuition discriminate|]); apply NoDup_nil.

Lemma complete_code_wp E pol info req f :
  rq_flow req = Some f -> f_type f = FAuthorizationCode ->
  wp (complete_guard pol info req) (complete_post E pol info req) [] (complete_code E pol info req).
Proof.
  intros HF HT. unfold complete_code.
  repeat (cstep; sdestruct); hist; unfold complete_post.
  all: try (left; apply Ht; reflexivity).
  eapply completed_code with (ta := ta); eauto.
  rewrite (given_eqb "state"). change (("code", s) :: real [("state", given (rq_state req))])
    with (real [("code", Some s); ("state", given (rq_state req))]).
  apply holds_real. nodup.
Qed.

Lemma state_scope_real req :
  state_scope req = real [("state", given (rq_state req)); ("scope", given (rq_scope req))].
Proof. unfold state_scope. rewrite !given_eqb, <- real_app. reflexivity. Qed.

Lemma holds_eq params l : NoDup (map fst l) -> params = real l -> holds params l.
Proof. intros H ->. apply holds_real. exact H. Qed.

Ltac params_tac := apply holds_eq;
  [cbn [app token_params]; nodup
  |cbn [app token_params real]; destruct (given (rq_state _)), (given (rq_scope _)); reflexivity].

Lemma complete_implicit_wp E pol info req f :
  rq_flow req = Some f -> f_type f = FImplicit ->
  wp (complete_guard pol info req) (complete_post E pol info req) [] (complete_implicit E pol info req f).
Proof.
  intros HF HT. unfold complete_implicit. cbv zeta. rewrite state_scope_real.
  repeat (cstep; sdestruct); hist; unfold complete_post.
  all: try reflexivity.
  all: try (left; apply Ht; reflexivity).
  - pose proof (gen_implicit_spec _ _ _ _ _ _ _ _ _ _ _ Heqo5) as (cs & ah & H1 & H2 & H3).
    refine (completed_implicit E pol (Some a) req f (Some c) (Some o3) (Some s) z
      [Ev (OCreateToken (Some a) false) (Some o3, None)] [Ev OIssuer x2; Ev ONow x3] _ ta HF HT _ _ _ HS).
    + rewrite Heqb. constructor.
    + rewrite Heqb0. eapply im_yes with (ah := ah) (ch := None); [reflexivity|reflexivity|exact H1|reflexivity|exact H2|exact H3].
    + params_tac.
  - refine (completed_implicit E pol info req f o (Some o3) None z
      [Ev (OCreateToken info false) (Some o3, None)] [] _ ta HF HT _ _ _ HS).
    + rewrite Heqb. constructor.
    + rewrite Heqb0. constructor.
    + params_tac.
  - pose proof (gen_implicit_spec _ _ _ _ _ _ _ _ _ _ _ Heqo3) as (cs & ah & H1 & H2 & H3).
    refine (completed_implicit E pol (Some a) req f (Some c) None (Some s) z
      [] [Ev OIssuer x1; Ev ONow x2] _ ta HF HT _ _ _ HS).
    + rewrite Heqb. constructor.
    + rewrite Heqb0. eapply im_yes with (ah := ah) (ch := None); [reflexivity|reflexivity|exact H1|reflexivity|exact H2|exact H3].
    + params_tac.
  - refine (completed_implicit E pol info req f o None None z [] [] _ ta HF HT _ _ _ HS).
    + rewrite Heqb. constructor.
    + rewrite Heqb0. constructor.
    + params_tac.
Qed.

Lemma complete_hybrid_wp E pol info req f :
  rq_flow req = Some f -> f_type f = FHybrid ->
  wp (complete_guard pol info req) (complete_post E pol info req) [] (complete_hybrid E pol info req f).
Proof.
  intros HF HT. unfold complete_hybrid. cbv zeta. rewrite state_scope_real.
  repeat (cstep; sdestruct); hist; unfold complete_post.
  all: try reflexivity.
  all: try (left; apply Ht; reflexivity).
  - pose proof (gen_hybrid_spec _ _ _ _ _ _ _ _ _ _ _ _ Heqo5) as (cs & ah & ch & H1 & H1' & H2 & H3).
    refine (completed_hybrid E pol (Some a) req f (Some c) (Some o3) (Some s0) s z
      [Ev (OCreateToken (Some a) false) (Some o3, None)] [Ev OIssuer x4; Ev ONow x5] _ ta HF HT _ _ _ HS).
    + rewrite Heqb. constructor.
    + rewrite Heqb0. eapply im_yes with (ah := ah) (ch := ch);
        [reflexivity|reflexivity|exact H1|exact H1'|exact H2|exact H3].
    + params_tac.
  - refine (completed_hybrid E pol info req f o (Some o3) None s z
      [Ev (OCreateToken info false) (Some o3, None)] [] _ ta HF HT _ _ _ HS).
    + rewrite Heqb. constructor.
    + rewrite Heqb0. constructor.
    + params_tac.
  - pose proof (gen_hybrid_spec _ _ _ _ _ _ _ _ _ _ _ _ Heqo3) as (cs & ah & ch & H1 & H1' & H2 & H3).
    refine (completed_hybrid E pol (Some a) req f (Some c) None (Some s0) s z
      [] [Ev OIssuer x3; Ev ONow x4] _ ta HF HT _ _ _ HS).
    + rewrite Heqb. constructor.
    + rewrite Heqb0. eapply im_yes with (ah := ah) (ch := ch);
        [reflexivity|reflexivity|exact H1|exact H1'|exact H2|exact H3].
    + params_tac.
  - refine (completed_hybrid E pol info req f o None None s z [] [] _ ta HF HT _ _ _ HS).
    + rewrite Heqb. constructor.
    + rewrite Heqb0. constructor.
    + params_tac.
Qed.

Lemma complete_wp E pol info req :
  wp (complete_guard pol info req) (complete_post E pol info req) [] (complete E pol info req).
Proof.
  unfold complete. destruct (rq_flow req) as [f|] eqn:HF; [|reflexivity].
  destruct (f_type f) eqn:HT.
  - eapply complete_code_wp; eauto.
  - apply complete_implicit_wp; auto.
  - apply complete_hybrid_wp; auto.
  - apply wp_ret. right. exists f. auto.
Qed.
