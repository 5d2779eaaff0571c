(** * Property theorems about the JWK endpoint (C51), the logger (C55) and the
    token endpoint's answers as documents (C58). *)
From Coq Require Import Lia Permutation.
From Verif Require Import GoStr Codec StrFacts Core Json OAuthError Grants TokenEndpoint Misc Hoare WpTac Spec TokenSpec
  CodecSpec CodecFacts JsonParse JsonFacts Demo TokenProofs PropsToken PropsCodec.
From Verif Require JsonSpec JsonRead.

(** ** C51 The published key set. *)

(* Adding keys one after the other; [None]: a key could not be loaded (panic). *)
Fixpoint jwk_adds (load : string -> option string) (e : jwk_endpoint) (l : kvs) : option jwk_endpoint :=
  match l with
  | [] => Some e
  | (kid, pem) :: r =>
      match jwk_add load e kid pem with
      | Some e' => jwk_adds load e' r
      | None => None
      end
  end.

(* [k] was loaded by the last addition under [kid]. *)
Definition last_added (load : string -> option string) (l : kvs) (kid k : string) : Prop :=
  exists a pem b, l = (a ++ (kid, pem) :: b)%list /\ ~ In kid (map fst b) /\ load pem = Some k.

Lemma kv_set_in kid k m kid' k' : NoDup (map fst m) ->
  In (kid', k') (kv_set kid k m) <-> (kid' = kid /\ k' = k) \/ (kid' <> kid /\ In (kid', k') m).
Proof.
  induction m as [|[x v] m IH]; intros HN; cbn [kv_set].
  - simpl. split; [intros [H|[]]; left; split; congruence|]. intros [[-> ->]|[_ []]]. auto.
  - inversion HN as [|? ? HX HM]; subst. destruct (kid =s? x) eqn:E.
    + apply seqb_eq in E. subst x. simpl. split.
      * intros [H|H]; [left; split; congruence|]. right. split; [|auto]. intros ->. apply HX.
        apply in_map_iff. exists (kid, k'). auto.
      * intros [[-> ->]|[H1 [H2|H2]]]; auto. congruence.
    + apply seqb_neq in E. simpl. rewrite IH by auto. split.
      * intros [H|[H|H]]; auto. right. injection H as -> ->. split; [congruence|auto]. right. tauto.
      * intros [H|[H1 [H2|H2]]]; auto.
Qed.
Lemma kv_set_nodup kid k m : NoDup (map fst m) -> NoDup (map fst (kv_set kid k m)).
Proof.
  assert (HS : forall (m : kvs) x, In x (map fst (kv_set kid k m)) -> x = kid \/ In x (map fst m)).
  { clear m. induction m as [|[y v] m IH]; simpl; intros x H.
    - destruct H as [H|[]]; auto.
    - destruct (kid =s? y) eqn:E; simpl in H.
      + destruct H as [H|H]; auto.
      + destruct H as [H|H]; auto. destruct (IH _ H); auto. }
  induction m as [|[y v] m IH]; intros HN; simpl.
  - constructor; [intros []|constructor].
  - inversion HN; subst. destruct (kid =s? y) eqn:E; simpl.
    + apply seqb_eq in E. subst. constructor; auto.
    + apply seqb_neq in E. constructor; [|auto]. intros HX. destruct (HS _ _ HX) as [->|HX']; [congruence|contradiction].
Qed.

Lemma jwk_adds_spec load l : forall e e', NoDup (map fst e) -> jwk_adds load e l = Some e' ->
  NoDup (map fst e') /\
  forall kid k, In (kid, k) e' <-> last_added load l kid k \/ (~ In kid (map fst l) /\ In (kid, k) e).
Proof.
  induction l as [|[kid pem] l IH]; intros e e' HN H; cbn [jwk_adds] in H.
  - injection H as <-. split; [auto|]. intros kid k. split; [right; auto|].
    intros [(a & pem & b & H & _)|[_ H]]; [destruct a; discriminate|auto].
  - unfold jwk_add in H. destruct (load pem) as [k0|] eqn:EL; [|discriminate].
    destruct (IH _ _ (kv_set_nodup kid k0 e HN) H) as [H1 H2]. split; [auto|]. intros x k. rewrite H2.
    rewrite kv_set_in by auto. split.
    + intros [(a & p & b & -> & Hb & HL)|[HX [[-> ->]|[H3 H4]]]].
      * left. exists ((kid, pem) :: a)%list, p, b. auto.
      * left. exists [], pem, l. auto.
      * right. split; [|auto]. simpl. intros [K|K]; congruence.
    + intros [(a & p & b & E & Hb & HL)|[HX H3]].
      * destruct a as [|y a].
        -- injection E as -> -> ->. right. split; [auto|]. left. split; [auto|congruence].
        -- injection E as _ ->. left. exists a, p, b. auto.
      * right. simpl in HX. split; [tauto|]. right. split; [|auto]. intros ->. tauto.
Qed.

Theorem C51_published : forall load render l e tr h tr' res,
  jwk_adds load new_jwk l = Some e ->
  exec (jwk_handler render e) tr (Done h) -> exec h tr' res ->
  http_ops tr = [] /\ res = Done tt /\
  exists keys, NoDup (map fst keys) /\ (forall kid k, In (kid, k) keys <-> last_added load l kid k) /\
    http_ops tr' = answer [("Content-Type", "application/json")] 200
                     (match render keys with Some doc => doc | None => "" end).
Proof.
  intros load render l e tr h tr' res HL HH HR.
  destruct (jwk_adds_spec load l new_jwk e (NoDup_nil _) HL) as [HN HE].
  unfold jwk_handler, call in HH. cbn [bind] in HH. apply exec_inv in HH. destruct HH as ([ordered HP] & t & -> & HH).
  apply exec_inv in HH. destruct HH as [-> HH]. injection HH as ->. split; [reflexivity|].
  unfold call in HR. cbn [bind] in HR.
  apply exec_inv in HR. destruct HR as (x1 & t1 & -> & HR). cbn [bind] in HR.
  apply exec_inv in HR. destruct HR as (x2 & t2 & -> & HR). cbn [bind] in HR.
  apply exec_inv in HR. destruct HR as (x3 & t3 & -> & HR). apply exec_inv in HR. destruct HR as [-> ->].
  destruct x3. split; [reflexivity|]. exists ordered. cbn [proj1_sig]. split; [|split].
  - eapply Permutation_NoDup; [|exact HN]. apply Permutation_map. symmetry. exact HP.
  - intros kid k. split.
    + intros H. apply (Permutation_in _ HP) in H. apply HE in H. destruct H as [H|[_ []]]. exact H.
    + intros H. apply (Permutation_in _ (Permutation_sym HP)). apply HE. auto.
  - reflexivity.
Qed.
Print Assumptions C51_published.

(* Adding fails (panics) exactly when some key cannot be loaded. *)
Theorem C51_bad_key : forall load l,
  jwk_adds load new_jwk l = None <-> exists kid pem, In (kid, pem) l /\ load pem = None.
Proof.
  intros load l. generalize new_jwk as e. induction l as [|[kid pem] l IH]; intros e; cbn [jwk_adds].
  - split; [discriminate|]. intros (? & ? & [] & _).
  - unfold jwk_add. destruct (load pem) as [k|] eqn:EL.
    + rewrite IH. split.
      * intros (a & b & H1 & H2). exists a, b. simpl. auto.
      * intros (a & b & [H1|H1] & H2); [congruence|eauto].
    + split; [|auto]. intros _. exists kid, pem. simpl. auto.
Qed.
Print Assumptions C51_bad_key.

(* A handler serves the same document for ever: what is added later is not published. *)
Theorem C51_served_document_is_fixed : forall render e tr h tr1 tr2 r1 r2,
  exec (jwk_handler render e) tr (Done h) -> exec h tr1 r1 -> exec h tr2 r2 -> tr1 = tr2.
Proof.
  intros render e tr h tr1 tr2 r1 r2 HH H1 H2.
  unfold jwk_handler, call in HH. cbn [bind] in HH. apply exec_inv in HH. destruct HH as ([ordered HP] & t & -> & HH).
  apply exec_inv in HH. destruct HH as [-> HH]. injection HH as ->.
  assert (X : forall tr r, exec (call (OSetHeader "Content-Type" "application/json");;;
      call (OStatus 200);;; call (OBody (or_empty (render ordered)))) tr r ->
      tr = [Ev (OSetHeader "Content-Type" "application/json") tt; Ev (OStatus 200) tt; Ev (OBody (or_empty (render ordered))) tt]).
  { clear. intros tr r HR. unfold call in HR. cbn [bind] in HR.
    apply exec_inv in HR. destruct HR as (x1 & t1 & -> & HR). cbn [bind] in HR.
    apply exec_inv in HR. destruct HR as (x2 & t2 & -> & HR). cbn [bind] in HR.
    apply exec_inv in HR. destruct HR as (x3 & t3 & -> & HR). apply exec_inv in HR. destruct HR as [-> ->].
    destruct x1, x2, x3. reflexivity. }
  rewrite (X _ _ H1), (X _ _ H2). reflexivity.
Qed.
Print Assumptions C51_served_document_is_fixed.

Example C51_example :
  let load pem := if pem =s? "bad" then None else Some ("key:" ++ pem) in
  jwk_adds load new_jwk [("a", "1"); ("b", "2"); ("a", "3")] = Some [("a", "key:3"); ("b", "key:2")] /\
  jwk_adds load new_jwk [("a", "1"); ("b", "bad")] = None.
Proof. split; reflexivity. Qed.

(** ** C55 Log levels. *)

Definition levels : list log_level := [LDebug; LInfo; LWarn; LError; LFatal].

(* Configured at the level of number [i], exactly the levels from [i] on are printed. *)
Theorem C55_filter : forall i l conf msg, nth_error levels i = Some l -> set_level (Z.of_nat i) = Some conf ->
  forall j l', nth_error levels j = Some l' -> (default_log conf l' msg <> None <-> (i <= j)%nat).
Proof.
  intros i l conf msg Hi Hc j l' Hj.
  assert (H : forall i l, nth_error levels i = Some l -> level_num l = Z.of_nat i).
  { intros n x H. do 5 (destruct n as [|n]; [injection H as <-; reflexivity|]). destruct n; discriminate. }
  unfold set_level in Hc. destruct (4 <? Z.of_nat i)%Z; [discriminate|]. injection Hc as <-.
  unfold default_log. rewrite (H _ _ Hj). destruct (Z.of_nat i <=? Z.of_nat j)%Z eqn:E.
  - apply Z.leb_le in E. split; [lia|discriminate].
  - apply Z.leb_gt in E. split; [congruence|lia].
Qed.
Print Assumptions C55_filter.

(* The message is printed unchanged at the end of the line. *)
Theorem C55_message_is_kept : forall conf l msg line, default_log conf l msg = Some line ->
  exists p, line = (p ++ msg)%string.
Proof.
  intros conf l msg line H. unfold default_log in H. destruct (conf <=? level_num l)%Z; [|discriminate].
  injection H as <-. unfold insert_label. eexists (_ ++ " ")%string. rewrite app_assoc_s. reflexivity.
Qed.
Print Assumptions C55_message_is_kept.

(* Three levels have the same label ... *)
Theorem C55_labels_refuted :
  level_label LError = "DEBUG" /\ level_label LFatal = "DEBUG" /\ level_label LDebug = "DEBUG".
Proof. auto. Qed.
Print Assumptions C55_labels_refuted.

(* ... and only the colour tells them apart. *)
Theorem C55_colours_tell_levels_apart : forall c c' l l' msg msg' line,
  default_log c l msg = Some line -> default_log c' l' msg' = Some line -> l = l' /\ msg = msg'.
Proof.
  intros c c' l l' msg msg' line H H'. unfold default_log in *.
  destruct (c <=? level_num l)%Z; [|discriminate]. destruct (c' <=? level_num l')%Z; [|discriminate].
  injection H as <-. injection H' as H'. destruct l, l'; vm_compute in H'; try discriminate H'; injection H' as <-; auto.
Qed.
Print Assumptions C55_colours_tell_levels_apart.

Example C55_example :
  default_log 2 LInfo "x" = None /\
  default_log 2 LError "x" = Some (String esc ("[33m[DEBUG]" ++ String esc "[m x")).
Proof. split; vm_compute; reflexivity. Qed.

(** ** C58 The token endpoint's answers are readable documents. *)

(* What a client reads in the document [body] as a token response. *)
Definition reads_tokens (body : string) (rs : response) : Prop :=
  exists l, JsonSpec.reads_object body l /\ NoDup (map fst l) /\ field "error" l = None /\
    str_field "token_type" l = "Bearer" /\ repaired (rs_access rs) (str_field "access_token" l) /\
    int_field "expires_in" l = rs_expires rs /\ repaired (rs_refresh rs) (str_field "refresh_token" l) /\
    repaired (rs_scope rs) (str_field "scope" l) /\ repaired (rs_id rs) (str_field "id_token" l).
(* ... and as an error. *)
Definition reads_error (body : string) (e : oauth_error) : Prop :=
  exists l, JsonSpec.reads_object body l /\ NoDup (map fst l) /\ field "access_token" l = None /\
    str_field "error" l = oerr_name (oe_type e) /\
    repaired (oe_desc e) (str_field "error_description" l) /\ repaired (oe_uri e) (str_field "error_uri" l).

Lemma response_fields rs : is_int64 (rs_expires rs) = true -> reads_tokens (response_json rs) rs.
Proof.
  intros HE. unfold reads_tokens, response_json. eexists. split.
  { apply JsonRead.jparse_iff. rewrite jparse_print; [reflexivity|]. apply w_obj. cbn [app]. apply Forall_cons; [apply w_str|].
    apply Forall_cons; [apply w_str|]. apply Forall_cons; [apply w_int; auto|].
    apply Forall_app. split; [unfold omit_empty; destruct (rs_refresh rs =s? ""); fields; apply w_str; auto|].
    apply Forall_cons; [apply w_str; auto|].
    unfold omit_empty; destruct (rs_id rs =s? ""); fields; apply w_str. }
  pose proof (to_valid_repaired (rs_access rs)) as R1. pose proof (to_valid_repaired (rs_refresh rs)) as R2.
  pose proof (to_valid_repaired (rs_scope rs)) as R3. pose proof (to_valid_repaired (rs_id rs)) as R4.
  unfold omit_empty. destruct (rs_refresh rs =s? "") eqn:E1, (rs_id rs =s? "") eqn:E2;
    try (apply seqb_eq in E1; rewrite E1 in *); try (apply seqb_eq in E2; rewrite E2 in *);
    (split; [cbn [app map fst repair]; repeat constructor; simpl; intuition discriminate|]);
    (repeat split); assumption.
Qed.
Lemma error_read e : reads_error (oerr_json e) e.
Proof.
  destruct (C49_json_is_readable e) as (l & H1 & H2 & H3 & H4 & H5 & H6). exists l.
  repeat (split; [assumption|]). split; [|auto].
  destruct (field "access_token" l) eqn:E; [|reflexivity]. exfalso.
  assert (HI : In "access_token" (map fst l)).
  { clear - E. revert j E. induction l as [|[k v] l IH]; intros j E; [discriminate|]. cbn [field] in E. simpl.
    destruct (field "access_token" l) as [x|]; [right; eapply IH; reflexivity|].
    destruct ("access_token" =s? k) eqn:K; [|discriminate]. apply seqb_eq in K. auto. }
  apply H6 in HI. simpl in HI. intuition discriminate.
Qed.

(* Every answer to a POST request is one document that reads as a token response
   or as an error, never as both.  (The lifetime is an int64 in Go.) *)
Theorem C58_token_endpoint : forall J te r tr u,
  only_bundled J te -> r_method r = "POST" -> exec (token_handler J te r) tr (Done u) ->
  (exists rs body, http_ops tr = answer no_cache_headers 200 body /\ http_ops tr = success_answer rs /\
     (is_int64 (rs_expires rs) = true -> reads_tokens body rs)) \/
  (exists st hs e body, http_ops tr = answer hs st body /\ (400 <= st <= 500)%Z /\ reads_error body e).
Proof.
  intros J te r tr u HB HM H. pose proof (C03_one_answer J te r tr (Done u) HB HM H) as [(rs & HA)|(st & e & HA & HS & _)].
  - left. exists rs, (response_json rs). split; [exact HA|]. split; [exact HA|]. apply response_fields.
  - right. destruct HA as (e' & _ & HA). do 4 eexists. split; [exact HA|]. split; [exact HS|].
    apply error_read.
Qed.
Print Assumptions C58_token_endpoint.

(* A browser that took a document for a page would find no mark-up in it. *)
Definition html_safe (s : string) : Prop :=
  forall a, In a (list_ascii_of_string s) -> ~ In a ["<"; ">"; "&"]%char.

Lemma safe_app a b : html_safe a -> html_safe b -> html_safe (a ++ b).
Proof.
  intros HA HB x Hx. rewrite bytes_app in Hx. apply in_app_or in Hx. destruct Hx; auto.
Qed.
Lemma safe_cons a s : ~ In a ["<"; ">"; "&"]%char -> html_safe s -> html_safe (String a s).
Proof. intros HA HS x [<-|Hx]; auto. Qed.
Lemma safe_nil : html_safe "".
Proof. intros x []. Qed.
Lemma safe_high a : N.ltb (nb a) 128 = false -> ~ In a ["<"; ">"; "&"]%char.
Proof. intros H HI. simpl in HI. repeat (destruct HI as [<-|HI]; [discriminate H|]). exact HI. Qed.
Lemma cont_high b : is_cont b = true -> N.ltb (nb b) 128 = false.
Proof.
  unfold is_cont, in_range. rewrite andb_true_iff, N.leb_le. intros [H _]. apply N.ltb_ge. exact H.
Qed.
Lemma range_high lo hi b : (128 <= lo)%N -> in_range lo hi b = true -> N.ltb (nb b) 128 = false.
Proof.
  unfold in_range. rewrite andb_true_iff, N.leb_le. intros HL [H _]. apply N.ltb_ge. lia.
Qed.
Lemma safe_ascii a : html_safe (jesc_ascii a).
Proof.
  destruct a as [[] [] [] [] [] [] [] []]; intros x Hx HI; vm_compute in Hx; simpl in HI;
    repeat (destruct Hx as [<-|Hx]; [intuition discriminate|]); exact Hx.
Qed.
Lemma safe_ufffd : html_safe ufffd.
Proof. intros x Hx HI. vm_compute in Hx. simpl in HI. repeat (destruct Hx as [<-|Hx]; [intuition discriminate|]). exact Hx. Qed.

Ltac highs := apply safe_high; first [eassumption | eapply cont_high; eassumption
  | eapply range_high; [|eassumption]; lia].
Lemma utf8_2_high a b : utf8_2 a b = true -> N.ltb (nb b) 128 = false.
Proof. unfold utf8_2. rewrite andb_true_iff. intros [_ H]. apply cont_high, H. Qed.
Lemma utf8_3_high a b c : utf8_3 a b c = true -> N.ltb (nb b) 128 = false /\ N.ltb (nb c) 128 = false.
Proof.
  unfold utf8_3. rewrite andb_true_iff, !orb_true_iff, !andb_true_iff. intros [H HC]. split; [|apply cont_high, HC].
  destruct H as [[[[_ H]|[_ H]]|[_ H]]|[_ H]]; first [apply cont_high, H | eapply range_high; [|exact H]; lia].
Qed.
Lemma utf8_4_high a b c d : utf8_4 a b c d = true ->
  N.ltb (nb b) 128 = false /\ N.ltb (nb c) 128 = false /\ N.ltb (nb d) 128 = false.
Proof.
  unfold utf8_4. rewrite !andb_true_iff, !orb_true_iff, !andb_true_iff. intros [[H HC] HD].
  split; [|split; apply cont_high; assumption].
  destruct H as [[[_ H]|[_ H]]|[_ H]]; first [apply cont_high, H | eapply range_high; [|exact H]; lia].
Qed.
Lemma safe_3 a b c : N.ltb (nb a) 128 = false -> utf8_3 a b c = true -> html_safe (jesc_3 a b c).
Proof.
  intros HA H. destruct (utf8_3_high _ _ _ H) as [HB HC]. unfold jesc_3.
  destruct (_ && _ && _)%bool; [intros x Hx HI; vm_compute in Hx; simpl in HI; repeat (destruct Hx as [<-|Hx]; [intuition discriminate|]); exact Hx|].
  destruct (_ && _ && _)%bool; [intros x Hx HI; vm_compute in Hx; simpl in HI; repeat (destruct Hx as [<-|Hx]; [intuition discriminate|]); exact Hx|].
  repeat (apply safe_cons; [apply safe_high; assumption|]). apply safe_nil.
Qed.
Lemma safe_escape s : html_safe (jescape s).
Proof.
  remember (String.length s) as n eqn:Hn. assert (HL : (String.length s <= n)%nat) by lia. clear Hn.
  revert s HL. induction n as [|n IH]; intros [|a s1] HL; try exact safe_nil; [simpl in HL; lia|].
  cbn [jescape]. cbn [String.length] in HL.
  destruct (N.ltb (nb a) 128) eqn:EA; [apply safe_app; [apply safe_ascii|apply IH; lia]|].
  destruct s1 as [|b s2]; [exact safe_ufffd|]. cbn [String.length] in HL.
  assert (H1 : html_safe (jescape (String b s2))) by (apply IH; cbn [String.length]; lia).
  destruct (utf8_2 a b) eqn:E2.
  { apply utf8_2_high in E2. repeat (apply safe_cons; [apply safe_high; assumption|]). apply IH. lia. }
  destruct s2 as [|c s3]; [apply safe_app; [exact safe_ufffd|exact H1]|]. cbn [String.length] in HL.
  destruct (utf8_3 a b c) eqn:E3; [apply safe_app; [apply safe_3; assumption|apply IH; lia]|].
  destruct s3 as [|d s4]; [apply safe_app; [exact safe_ufffd|exact H1]|]. cbn [String.length] in HL.
  destruct (utf8_4 a b c d) eqn:E4; [|apply safe_app; [exact safe_ufffd|exact H1]].
  destruct (utf8_4_high _ _ _ _ E4) as (HB & HC & HD).
  repeat (apply safe_cons; [apply safe_high; assumption|]). apply IH. lia.
Qed.
Lemma safe_string s : html_safe (jstring s).
Proof.
  unfold jstring. apply safe_cons; [simpl; intuition discriminate|]. apply safe_app; [apply safe_escape|].
  apply safe_cons; [simpl; intuition discriminate|apply safe_nil].
Qed.
Lemma safe_digits d : Forall (fun a => is_digit a = true) (list_ascii_of_string d) -> html_safe d.
Proof.
  intros H a Ha HI. rewrite Forall_forall in H. specialize (H a Ha). simpl in HI.
  repeat (destruct HI as [<-|HI]; [discriminate H|]). exact HI.
Qed.
Lemma safe_itoa z : html_safe (itoa z).
Proof.
  destruct (itoa_form z) as (d & [HD _] & [(_ & -> & _)|(_ & -> & _)]); [apply safe_digits; auto|].
  apply safe_cons; [simpl; intuition discriminate|apply safe_digits; auto].
Qed.

Ltac lit := let x := fresh in let Hx := fresh in let HI := fresh in
  intros x Hx HI; vm_compute in Hx; simpl in HI; repeat (destruct Hx as [<-|Hx]; [intuition discriminate|]); exact Hx.
Inductive flat : json -> Prop :=
| fl_str s : flat (JSString s)
| fl_int z : flat (JSInt z).
Lemma safe_flat l : Forall (fun p => flat (snd p)) l -> html_safe (jprint (JSObj l)).
Proof.
  intros H.
  assert (HV : forall v, flat v -> html_safe (jprint v)) by (intros v []; [apply safe_string|apply safe_itoa]).
  destruct l as [|[k v] l]; [lit|]. cbn [jprint]. inversion H as [|x y HK HL]; subst.
  apply safe_app; [lit|]. apply safe_app; [apply safe_string|]. apply safe_app; [lit|].
  apply safe_app; [apply HV; exact HK|]. apply safe_app; [|lit].
  clear - HL HV. induction HL as [|[k' v'] l HK _ IH]; [exact safe_nil|]. cbn [sep_cons fst snd].
  apply safe_app; [lit|]. apply safe_app; [|exact IH]. apply safe_app; [apply safe_string|].
  apply safe_app; [lit|]. apply HV. exact HK.
Qed.
Lemma omit_flat k v : Forall (fun p => flat (snd p)) (omit_empty k v).
Proof. unfold omit_empty. destruct (v =s? ""); repeat constructor. Qed.

Theorem C58_no_markup : forall J te r tr u b,
  only_bundled J te -> r_method r = "POST" -> exec (token_handler J te r) tr (Done u) ->
  In (OBody b) (http_ops tr) -> html_safe b.
Proof.
  intros J te r tr u b HB HM H HI.
  assert (HA : forall hs st body, http_ops tr = answer hs st body -> html_safe body -> html_safe b).
  { intros hs st body HE HS. rewrite HE in HI. unfold answer in HI. apply in_app_or in HI.
    destruct HI as [HI|[HI|[HI|[]]]]; [|discriminate HI|injection HI as <-; exact HS].
    apply in_map_iff in HI. destruct HI as (x & HX & _). destruct x. discriminate HX. }
  pose proof (C03_one_answer J te r tr (Done u) HB HM H) as [(rs & HE)|(st & e & HE & _)].
  - apply (HA _ _ _ HE). unfold response_json. apply safe_flat. repeat constructor. apply Forall_app.
    split; [apply omit_flat|]. constructor; [constructor|apply omit_flat].
  - destruct HE as (e' & _ & HE). apply (HA _ _ _ HE). unfold oerr_json. apply safe_flat.
    constructor; [constructor|]. apply Forall_app. split; apply omit_flat.
Qed.
Print Assumptions C58_no_markup.

Example C58_example :
  exists tr rs, exec (token_handler demoJ te0 code_request) tr (Done tt) /\
    http_ops tr = success_answer rs /\ is_int64 (rs_expires rs) = true /\ reads_tokens (response_json rs) rs /\
    jparse (response_json rs) = Some (JSObj [("token_type", JSString "Bearer"); ("access_token", JSString "access1");
      ("expires_in", JSInt 3600); ("refresh_token", JSString "refresh1"); ("scope", JSString "openid offline_access");
      ("id_token", JSString "signed.id.token")]).
Proof.
  exists (run_of (answers1 "") te0 code_request), (Response "access1" 3600 "refresh1" "openid offline_access" "signed.id.token").
  split; [apply run_of_exec; vm_compute; reflexivity|].
  split; [vm_compute; reflexivity|split; [reflexivity|split; [|vm_compute; reflexivity]]].
  apply response_fields. reflexivity.
Qed.
