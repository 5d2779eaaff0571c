(** * Facts about scope, prompt, flow, response_mode, pkce (Utils.v). *)
From Coq Require Import Lia Sorted Permutation.
From Verif Require Import GoStr Codec Sha Utils Core Spec StrFacts.

(** ** words *)

Lemma words_split s l : words_of s l <-> split_on space s = l.
Proof.
  split.
  - intros (Hn & Hf & ->). rewrite <- join_concat. apply (split_join space); auto.
    eapply Forall_impl; [|exact Hf]. intros w Hw. apply has_byte_false; auto.
  - intros <-. repeat split.
    + apply split_on_nonempty.
    + eapply Forall_impl; [|apply (split_on_no_sep space)]. intros w Hw.
      apply has_byte_false in Hw; auto.
    + rewrite <- join_concat. symmetry. apply (join_split space).
Qed.

Lemma words_exist s : exists l, words_of s l.
Proof. exists (split_on space s). apply words_split; auto. Qed.
Lemma words_unique s l1 l2 : words_of s l1 -> words_of s l2 -> l1 = l2.
Proof. rewrite !words_split. congruence. Qed.

(** ** scope *)

Lemma scope_include_spec s l t : words_of s l -> (scope_include s t = true <-> In t l).
Proof. rewrite words_split. intros <-. apply mem_str_In. Qed.

Lemma first_missing_spec have want :
  match first_missing have want with
  | (true, m) => m = "" /\ incl want have
  | (false, m) => exists pre post, (want = pre ++ m :: post)%list /\ incl pre have /\ ~ In m have
  end.
Proof.
  induction want as [|w want IH]; simpl.
  - split; auto. intros x [].
  - destruct (mem_str w have) eqn:E.
    + apply mem_str_In in E. destruct (first_missing have want) as [[] m].
      * destruct IH as [-> H]. split; auto. intros x [<-|Hx]; auto.
      * destruct IH as (pre & post & -> & H1 & H2). exists (w :: pre), post.
        repeat split; auto. intros x [<-|Hx]; auto.
    + apply mem_str_false in E. exists [], want. repeat split; auto. intros x [].
Qed.

Lemma scope_include_all_spec s l want : words_of s l ->
  (forall m, scope_include_all s want = (true, m) <-> m = "" /\ incl want l) /\
  (forall m, scope_include_all s want = (false, m) <->
     exists pre post, (want = pre ++ m :: post)%list /\ incl pre l /\ ~ In m l).
Proof.
  rewrite words_split. intros <-. unfold scope_include_all, scope_split.
  pose proof (first_missing_spec (split_on space s) want) as F.
  destruct (first_missing (split_on space s) want) as [[] m0].
  - destruct F as [-> F]. split; intros m; split; intros H.
    + inversion H; auto.
    + destruct H; subst; auto.
    + inversion H.
    + destruct H as (pre & post & -> & H1 & H2). exfalso. apply H2, F, in_or_app; right; left; auto.
  - destruct F as (pre & post & -> & H1 & H2). split; intros m; split; intros H.
    + inversion H.
    + destruct H as [_ H]. exfalso. apply H2, H, in_or_app; right; left; auto.
    + inversion H; subst. eauto 6.
    + f_equal. destruct H as (pre' & post' & E & H3 & H4).
      revert pre' E H3. induction pre as [|a pre IH]; intros [|b pre'] E H3; simpl in E; inversion E; subst; auto.
      * exfalso. apply H2, H3. left; auto.
      * exfalso. apply H4, H1. left; auto.
      * eapply IH; eauto; intros x Hx; [apply H1|apply H3]; right; auto.
Qed.

Lemma scope_remove_spec s l t : words_of s l ->
  let keep := filter (fun w => negb (String.eqb w t)) l in
  (keep = [] -> scope_remove s t = "") /\ (keep <> [] -> words_of (scope_remove s t) keep).
Proof.
  intros W. pose proof W as (_ & HF & _). apply words_split in W. subst l.
  intros keep. unfold scope_remove, scope_split, seqb. fold keep. split.
  - intros ->. reflexivity.
  - intros Hn. split; [|split]; auto.
    + unfold keep. rewrite Forall_forall in *. intros w Hw. apply HF.
      apply filter_In in Hw. tauto.
Qed.

Lemma scope_remove_not_included s t : t <> "" -> scope_include (scope_remove s t) t = false.
Proof.
  intros Ht. destruct (words_exist s) as [l W].
  pose proof (scope_remove_spec s l t W) as [H1 H2].
  set (keep := filter (fun w => negb (String.eqb w t)) l) in *.
  destruct keep as [|k ks] eqn:E.
  - rewrite H1 by auto. destruct t; [congruence|reflexivity].
  - assert (W2 : words_of (scope_remove s t) (k :: ks)) by (apply H2; discriminate).
    apply Bool.not_true_is_false. intros H. apply (scope_include_spec _ _ _ W2) in H.
    rewrite <- E in H. unfold keep in H. apply filter_In in H. destruct H as [_ H].
    rewrite String.eqb_refl in H. discriminate.
Qed.

Lemma scope_remove_include s t u : u <> "" ->
  scope_include (scope_remove s t) u = true -> scope_include s u = true /\ u <> t.
Proof.
  intros Hu H. destruct (words_exist s) as [l W].
  pose proof (scope_remove_spec s l t W) as [H1 H2].
  set (keep := filter (fun w => negb (String.eqb w t)) l) in *.
  destruct keep as [|k ks] eqn:E.
  - rewrite H1 in H by auto. destruct u; [congruence|discriminate].
  - assert (W2 : words_of (scope_remove s t) (k :: ks)) by (apply H2; discriminate).
    apply (scope_include_spec _ _ _ W2) in H. rewrite <- E in H. unfold keep in H.
    apply filter_In in H. destruct H as [HA HB]. split.
    + apply (scope_include_spec _ _ _ W); auto.
    + apply negb_true_iff, String.eqb_neq in HB. auto.
Qed.

Lemma scope_sort_spec s l : words_of s l ->
  exists l', words_of (scope_sort s) l' /\ Permutation l l' /\ StronglySorted bytes_le l'.
Proof.
  rewrite words_split. intros <-. exists (ssort (split_on space s)). repeat split.
  - apply ssort_nonempty, split_on_nonempty.
  - pose proof (no_space_sort _ (split_on_no_sep space s)) as H.
    eapply Forall_impl; [|exact H]. intros w Hw. apply has_byte_false in Hw; auto.
  - apply ssort_perm.
  - pose proof (ssort_sorted (split_on space s)) as H. induction H; constructor; auto.
    eapply Forall_impl; [|exact H0]. intros x. unfold sle_p, sle, bytes_le.
    destruct (String.compare a x); congruence.
Qed.

Lemma scope_same_spec a b la lb : words_of a la -> words_of b lb ->
  (scope_same a b = true <-> Permutation la lb).
Proof.
  rewrite !words_split. intros <- <-. unfold scope_same. rewrite seqb_eq.
  rewrite <- ssort_canonical. unfold scope_sort, scope_split. split; intros H.
  - rewrite <- (split_sort a), <- (split_sort b), H. reflexivity.
  - rewrite H. reflexivity.
Qed.

(** ** prompt *)

Definition prompt_values : list string := ["none"; "login"; "consent"; "select_account"].

Lemma prompt_loop_spec l : forall hn ho,
  prompt_loop l hn ho = true <->
  Forall (fun w => In w prompt_values) l /\
  ~ ((hn = true \/ In "none" l) /\ (ho = true \/ exists w, In w l /\ w <> "none")).
Proof.
  induction l as [|p l IH]; intros hn ho; simpl.
  - rewrite negb_true_iff. split.
    + intros H. split; [constructor|]. intros [[->|[]] [->|(w & [] & _)]]. discriminate.
    + intros [_ H]. destruct hn, ho; auto. exfalso. apply H. auto.
  - unfold PNone, PLogin, PConsent, PSelectAccount.
    destruct (p =s? "none") eqn:E1; sdestruct.
    { subst. rewrite IH. split; intros [H1 H2]; split.
      - constructor; auto; simpl; auto.
      - intros [_ [H3|(w & [<-|H3] & H4)]];
          [apply H2; auto | congruence | apply H2; split; [auto|right; eauto]].
      - inversion H1; auto.
      - intros [_ [H3|(w & H3 & H4)]]; apply H2; split; auto; right; eauto. }
    assert (S : forall hn' ho', ho' = true -> In p prompt_values -> (p <> "none") ->
      (prompt_loop l hn' ho' = true <->
       Forall (fun w => In w prompt_values) (p :: l) /\
       ~ ((hn' = true \/ p = "none" \/ In "none" l) /\
          (ho = true \/ (exists w, (p = w \/ In w l) /\ w <> "none"))))).
    { intros hn' ho' -> Hp Hpn. rewrite IH. split; intros [H1 H2]; split.
      - constructor; auto.
      - intros [H3 _]. apply H2. split; auto. destruct H3 as [?|[?|?]]; auto; congruence.
      - inversion H1; auto.
      - intros [H3 _]. apply H2. split; [tauto|]. right. exists p. auto. }
    destruct (p =s? "login") eqn:E2; sdestruct; [subst; apply S; simpl; auto|].
    destruct (p =s? "consent") eqn:E3; sdestruct; [subst; apply S; simpl; auto|].
    destruct (p =s? "select_account") eqn:E4; sdestruct; [subst; apply S; simpl; auto|].
    split; [discriminate|]. intros [H _]. inversion H; subst. simpl in H2.
    intuition congruence.
Qed.

Lemma prompt_validate_spec s l : words_of s l ->
  (prompt_validate s = true <->
   Forall (fun w => In w ["none"; "login"; "consent"; "select_account"]) l /\
   (In "none" l -> Forall (fun w => w = "none") l)).
Proof.
  rewrite words_split. intros <-. unfold prompt_validate, prompt_split.
  rewrite prompt_loop_spec. fold prompt_values. set (l := split_on space s).
  split; intros [H1 H2]; split; auto.
  - intros Hn. apply Forall_forall. intros w Hw.
    destruct (String.eqb_spec w "none") as [|n]; auto. exfalso. apply H2. split; eauto.
  - intros [[|Hn] [|(w & Hw & Hd)]]; try discriminate. specialize (H2 Hn).
    rewrite Forall_forall in H2. auto.
Qed.

(** ** flow *)

Lemma judge_perm s l : words_of s l ->
  judge_response_type s =
  let is x := if list_eq_dec string_dec (ssort l) x then true else false in
  if is ["code"] then Some (Flow FAuthorizationCode false false)
  else if is ["code"; "id_token"] then Some (Flow FHybrid false true)
  else if is ["code"; "id_token"; "token"] then Some (Flow FHybrid true true)
  else if is ["code"; "token"] then Some (Flow FHybrid true false)
  else if is ["id_token"] then Some (Flow FImplicit false true)
  else if is ["id_token"; "token"] then Some (Flow FImplicit true true)
  else if is ["token"] then Some (Flow FImplicit true false)
  else None.
Proof.
  rewrite words_split. intros <-. unfold judge_response_type. simpl.
  assert (S : forall str lst, split_on space str = lst ->
     (join " " (ssort (split_on space s)) =s? str) =
     (if list_eq_dec string_dec (ssort (split_on space s)) lst then true else false)).
  { intros str lst Hl. destruct (list_eq_dec string_dec _ lst) as [e|n].
    - apply seqb_eq. rewrite e, <- Hl. apply (join_split space).
    - apply seqb_neq. intros H. apply n. rewrite <- Hl, <- H. symmetry. apply split_sort. }
  rewrite (S "code" ["code"] eq_refl).
  rewrite (S "code id_token" ["code"; "id_token"] eq_refl).
  rewrite (S "code id_token token" ["code"; "id_token"; "token"] eq_refl).
  rewrite (S "code token" ["code"; "token"] eq_refl).
  rewrite (S "id_token" ["id_token"] eq_refl).
  rewrite (S "id_token token" ["id_token"; "token"] eq_refl).
  rewrite (S "token" ["token"] eq_refl). reflexivity.
Qed.

(** The sorted lists without duplicates over the three response types. *)
Lemma response_type_lists l : l <> [] -> NoDup l -> incl l ["code"; "token"; "id_token"] ->
  In (ssort l) [["code"]; ["code"; "id_token"]; ["code"; "id_token"; "token"]; ["code"; "token"];
                ["id_token"]; ["id_token"; "token"]; ["token"]].
Proof.
  intros Hn Hd Hi.
  assert (L : (length l <= 3)%nat) by (apply (NoDup_incl_length Hd) in Hi; exact Hi).
  assert (A : forall x, In x l -> x = "code" \/ x = "token" \/ x = "id_token").
  { intros x Hx. apply Hi in Hx. simpl in Hx. intuition congruence. }
  destruct l as [|a [|b [|c [|d l]]]]; simpl in L; try congruence; try lia.
  - destruct (A a) as [->|[->| ->]]; simpl; auto 10.
  - assert (a <> b) by (intros ->; inversion Hd; simpl in *; tauto).
    destruct (A a) as [->|[->| ->]]; destruct (A b) as [->|[->| ->]]; simpl; auto 10; congruence.
  - assert (a <> b) by (intros ->; inversion Hd; simpl in *; tauto).
    assert (a <> c) by (intros ->; inversion Hd; simpl in *; tauto).
    assert (b <> c) by (intros ->; inversion Hd as [|? ? ? Hd2]; inversion Hd2; simpl in *; tauto).
    destruct (A a) as [->|[->| ->]]; destruct (A b) as [->|[->| ->]];
      destruct (A c) as [->|[->| ->]]; simpl; auto 10; congruence.
Qed.

Lemma judge_spec s l f : words_of s l ->
  (judge_response_type s = Some f <->
   NoDup l /\ incl l ["code"; "token"; "id_token"] /\
   (f_access f = true <-> In "token" l) /\
   (f_id f = true <-> In "id_token" l) /\
   f_type f = (if in_dec string_dec "code" l
               then if list_eq_dec string_dec l ["code"] then FAuthorizationCode else FHybrid
               else FImplicit)).
Proof.
  intros W. rewrite (judge_perm s l W). simpl.
  pose proof W as (Hn & _ & _).
  assert (K : forall x f0, ssort l = x ->
    NoDup x -> incl x ["code"; "token"; "id_token"] ->
    (f_access f0 = true <-> In "token" x) -> (f_id f0 = true <-> In "id_token" x) ->
    f_type f0 = (if in_dec string_dec "code" x
                 then if list_eq_dec string_dec x ["code"] then FAuthorizationCode else FHybrid
                 else FImplicit) ->
    (Some f0 = Some f <->
     NoDup l /\ incl l ["code"; "token"; "id_token"] /\
     (f_access f = true <-> In "token" l) /\
     (f_id f = true <-> In "id_token" l) /\
     f_type f = (if in_dec string_dec "code" l
                 then if list_eq_dec string_dec l ["code"] then FAuthorizationCode else FHybrid
                 else FImplicit))).
  { intros x f0 E Hx1 Hx2 Ha Hi Ht.
    assert (P : Permutation l x) by (rewrite <- E; apply ssort_perm).
    assert (Hin : forall w, In w l <-> In w x).
    { intros w. split; apply Permutation_in; auto using Permutation_sym. }
    assert (T : (if in_dec string_dec "code" l
                 then if list_eq_dec string_dec l ["code"] then FAuthorizationCode else FHybrid
                 else FImplicit) =
                (if in_dec string_dec "code" x
                 then if list_eq_dec string_dec x ["code"] then FAuthorizationCode else FHybrid
                 else FImplicit)).
    { destruct (in_dec string_dec "code" l) as [i|n], (in_dec string_dec "code" x) as [i'|n'];
        try (exfalso; rewrite Hin in *; tauto); auto.
      destruct (list_eq_dec string_dec l ["code"]) as [e|n], (list_eq_dec string_dec x ["code"]) as [e'|n']; auto.
      - exfalso. subst l. apply Permutation_length_1_inv in P. auto.
      - exfalso. subst x. apply n. apply Permutation_length_1_inv, Permutation_sym. rewrite e' in P. auto. }
    rewrite T. split.
    - intros [= <-]. split; [|split; [|split; [|split]]].
      + eapply Permutation_NoDup; [apply Permutation_sym|]; eauto.
      + intros w Hw. apply Hx2, Hin, Hw.
      + rewrite Hin; auto.
      + rewrite Hin; auto.
      + auto.
    - intros (_ & _ & Ha' & Hi' & Ht'). f_equal.
      rewrite Hin in Ha', Hi'. destruct f0 as [t0 a0 i0], f as [t a i]. simpl in *.
      f_equal; [congruence| |].
      + destruct a0, a; auto; intuition congruence.
      + destruct i0, i; auto; intuition congruence. }
  repeat match goal with
  | |- context [list_eq_dec string_dec (ssort l) ?x] =>
      destruct (list_eq_dec string_dec (ssort l) x) as [e|?];
      [ eapply K; [exact e| | | | |]; simpl; try reflexivity;
        [ repeat constructor; simpl; intuition congruence
        | intros w Hw; simpl in *; intuition congruence
        | intuition congruence
        | intuition congruence ]
      | ]
  end.
  split; [discriminate|]. intros (Hd & Hi & _).
  pose proof (response_type_lists l Hn Hd Hi) as HI. simpl in HI. intuition congruence.
Qed.

(** ** base64url without padding *)

Definition nopad3 (s : string) : string :=
  match s with
  | String a (String b "") =>
      String (sx_char B64Url (sx_1 a)) (String (sx_char B64Url (sx_2 a b))
        (String (sx_char B64Url (sx_3 b nul)) ""))
  | String a "" => String (sx_char B64Url (sx_1 a)) (String (sx_char B64Url (sx_2 a nul)) "")
  | _ => ""
  end.

Lemma sx_char_url s : sx_char B64Url s =
  nth (bits_value [x5 s; x4 s; x3 s; x2 s; x1 s; x0 s]) b64url_alphabet "="%char.
Proof. destruct s as [[] [] [] [] [] []]; reflexivity. Qed.

Lemma sx_char_ne_pad al s : Ascii.eqb (sx_char al s) "=" = false.
Proof. destruct al, s as [[] [] [] [] [] []]; reflexivity. Qed.

Lemma sx_char_url_safe s :
  sx_char B64Url s <> "="%char /\ sx_char B64Url s <> "+"%char /\ sx_char B64Url s <> "/"%char.
Proof. destruct s as [[] [] [] [] [] []]; repeat split; discriminate. Qed.

Lemma char_sx_char al s : char_sx al (sx_char al s) = Some s.
Proof. destruct al, s as [[] [] [] [] [] []]; reflexivity. Qed.

Lemma b64url_nopad_hd s :
  b64url_nopad s = hd "" (split_on "=" (b64_encode B64Url s)).
Proof. unfold b64url_nopad. destruct (split_on "=" (b64_encode B64Url s)); reflexivity. Qed.

Lemma b64url_nopad_3 a b c s :
  b64url_nopad (String a (String b (String c s))) =
  String (sx_char B64Url (sx_1 a)) (String (sx_char B64Url (sx_2 a b))
    (String (sx_char B64Url (sx_3 b c)) (String (sx_char B64Url (sx_4 c)) (b64url_nopad s)))).
Proof.
  rewrite !b64url_nopad_hd. simpl b64_encode.
  rewrite !split_on_cons, !sx_char_ne_pad. simpl. reflexivity.
Qed.

Lemma b64url_nopad_2 a b :
  b64url_nopad (String a (String b "")) = nopad3 (String a (String b "")).
Proof.
  rewrite b64url_nopad_hd. simpl b64_encode.
  rewrite !split_on_cons, !sx_char_ne_pad. simpl. reflexivity.
Qed.

Lemma b64url_nopad_1 a : b64url_nopad (String a "") = nopad3 (String a "").
Proof.
  rewrite b64url_nopad_hd. simpl b64_encode.
  rewrite !split_on_cons, !sx_char_ne_pad. simpl. reflexivity.
Qed.

(** Induction in steps of three bytes. *)
Lemma string_ind3 (P : string -> Prop) :
  P "" -> (forall a, P (String a "")) -> (forall a b, P (String a (String b ""))) ->
  (forall a b c s, P s -> P (String a (String b (String c s)))) -> forall s, P s.
Proof.
  intros H0 H1 H2 H3.
  refine (fix go s : P s := match s with
    | EmptyString => H0
    | String a EmptyString => H1 a
    | String a (String b EmptyString) => H2 a b
    | String a (String b (String c s')) => H3 a b c s' (go s')
    end).
Qed.

Lemma groups_app24 a b c r :
  six_bit_groups (byte_bits a ++ byte_bits b ++ byte_bits c ++ r)%list =
  let s1 := sx_1 a in let s2 := sx_2 a b in let s3 := sx_3 b c in let s4 := sx_4 c in
  let g s := [x5 s; x4 s; x3 s; x2 s; x1 s; x0 s] in
  g s1 :: g s2 :: g s3 :: g s4 :: six_bit_groups r.
Proof. destruct a, b, c. reflexivity. Qed.

Lemma b64url_nopad_rfc s : b64url_nopad s = rfc4648_url s.
Proof.
  induction s as [|a|a b|a b c s IH] using string_ind3.
  - reflexivity.
  - rewrite b64url_nopad_1. simpl nopad3. rewrite !sx_char_url. destruct a. reflexivity.
  - rewrite b64url_nopad_2. simpl nopad3. rewrite !sx_char_url. destruct a, b. reflexivity.
  - rewrite b64url_nopad_3, IH. unfold rfc4648_url.
    simpl list_ascii_of_string. simpl flat_map. rewrite groups_app24.
    cbv zeta. rewrite !sx_char_url. reflexivity.
Qed.

Definition url_safe_byte (c : ascii) : Prop :=
  c <> "="%char /\ c <> "+"%char /\ c <> "/"%char.

Lemma b64url_nopad_safe s : Forall url_safe_byte (list_ascii_of_string (b64url_nopad s)).
Proof.
  induction s as [|a|a b|a b c s IH] using string_ind3.
  - constructor.
  - rewrite b64url_nopad_1. repeat constructor; apply sx_char_url_safe.
  - rewrite b64url_nopad_2. repeat constructor; apply sx_char_url_safe.
  - rewrite b64url_nopad_3. simpl. repeat constructor; try apply sx_char_url_safe. exact IH.
Qed.

Lemma b64url_nopad_length s :
  String.length (b64url_nopad s) = ((4 * String.length s + 2) / 3)%nat.
Proof.
  induction s as [|a|a b|a b c s IH] using string_ind3.
  - reflexivity.
  - rewrite b64url_nopad_1. reflexivity.
  - rewrite b64url_nopad_2. reflexivity.
  - rewrite b64url_nopad_3. simpl String.length. rewrite IH.
    replace (4 * S (S (S (String.length s))) + 2)%nat with (4 * String.length s + 2 + 4 * 3)%nat by lia.
    rewrite Nat.div_add by lia. lia.
Qed.

Lemma sx_inj s t : sx_char B64Url s = sx_char B64Url t -> s = t.
Proof.
  intros H. assert (E : Some s = Some t) by (rewrite <- (char_sx_char B64Url s), H; apply char_sx_char).
  congruence.
Qed.

Lemma sx3_inj a b c a' b' c' :
  sx_1 a = sx_1 a' -> sx_2 a b = sx_2 a' b' -> sx_3 b c = sx_3 b' c' -> sx_4 c = sx_4 c' ->
  a = a' /\ b = b' /\ c = c'.
Proof.
  destruct a, b, c, a', b', c'. simpl. intros [=] [=] [=] [=]. subst. auto.
Qed.

Lemma b64url_nopad_inj s : forall t, b64url_nopad s = b64url_nopad t -> s = t.
Proof.
  induction s as [|a|a b|a b c s IH] using string_ind3; intros t H.
  - destruct t as [|x [|y [|z t]]]; auto; exfalso; revert H;
      rewrite ?b64url_nopad_1, ?b64url_nopad_2, ?b64url_nopad_3; discriminate.
  - destruct t as [|x [|y [|z t]]]; revert H;
      rewrite ?b64url_nopad_1, ?b64url_nopad_2, ?b64url_nopad_3; intros H; try discriminate.
    injection H as H1 H2. apply sx_inj in H1, H2.
    destruct (sx3_inj a nul nul x nul nul) as [-> _]; auto.
  - destruct t as [|x [|y [|z t]]]; revert H;
      rewrite ?b64url_nopad_1, ?b64url_nopad_2, ?b64url_nopad_3; intros H; try discriminate.
    injection H as H1 H2 H3. apply sx_inj in H1, H2, H3.
    destruct (sx3_inj a b nul x y nul) as [-> [-> _]]; auto.
  - destruct t as [|x [|y [|z t]]]; revert H;
      rewrite ?b64url_nopad_1, ?b64url_nopad_2, ?b64url_nopad_3; intros H; try discriminate.
    injection H as H1 H2 H3 H4 H5. apply sx_inj in H1, H2, H3, H4.
    destruct (sx3_inj a b c x y z) as [-> [-> ->]]; auto. rewrite (IH t H5). reflexivity.
Qed.

(** ** base64 round trip *)

Lemma b64_quanta_encode al s : b64_quanta al (b64_encode al s) = Some s.
Proof.
  induction s as [|a|a b|a b c s IH] using string_ind3.
  - reflexivity.
  - simpl. rewrite !char_sx_char. destruct a. reflexivity.
  - simpl. rewrite !char_sx_char. rewrite sx_char_ne_pad. destruct a, b. reflexivity.
  - simpl. rewrite !char_sx_char. rewrite !sx_char_ne_pad. rewrite IH. destruct a, b, c. reflexivity.
Qed.

Lemma strip_nl_sx al s t :
  strip_nl (String (sx_char al s) t) = String (sx_char al s) (strip_nl t).
Proof. destruct al, s as [[] [] [] [] [] []]; reflexivity. Qed.

Lemma strip_nl_encode al s : strip_nl (b64_encode al s) = b64_encode al s.
Proof.
  induction s as [|a|a b|a b c s IH] using string_ind3; auto; simpl b64_encode;
    rewrite !strip_nl_sx; try rewrite IH; reflexivity.
Qed.

Lemma b64_round al s : b64_decode al (b64_encode al s) = Some s.
Proof. unfold b64_decode. rewrite strip_nl_encode. apply b64_quanta_encode. Qed.

(** ** pkce *)

Lemma pkce_spec m v c :
  (exists x, find_verifier m = Some x /\ pkce_verify x c v = true) <->
  (m = "plain" /\ c = v) \/ (m = "S256" /\ c = rfc4648_url (sha256 v)).
Proof.
  unfold find_verifier. split.
  - intros (x & Hx & H). destruct (m =s? "plain") eqn:E1; sdestruct.
    + injection Hx as <-. simpl in H. sdestruct. auto.
    + destruct (m =s? "S256") eqn:E2; [|discriminate]. sdestruct. injection Hx as <-.
      simpl in H. sdestruct. right. split; auto. rewrite <- b64url_nopad_rfc. auto.
  - intros [[-> ->]|[-> ->]]; simpl; eexists; (split; [reflexivity|]); simpl.
    + apply seqb_refl.
    + unfold s256_encode. rewrite b64url_nopad_rfc. apply seqb_refl.
Qed.

Lemma find_verifier_none m : find_verifier m = None <-> m <> "plain" /\ m <> "S256".
Proof.
  unfold find_verifier. destruct (m =s? "plain") eqn:E1; sdestruct; [split; [discriminate|tauto]|].
  destruct (m =s? "S256") eqn:E2; sdestruct; [split; [discriminate|tauto]|]. tauto.
Qed.

Lemma words_exist_unique s : exists l, words_of s l /\ forall l', words_of s l' -> l' = l.
Proof.
  destruct (words_exist s) as [l H]. exists l. split; [auto|].
  intros l' H'. exact (words_unique s l' l H' H).
Qed.

Lemma judge_order s s' l l' : words_of s l -> words_of s' l' -> Permutation l l' ->
  judge_response_type s = judge_response_type s'.
Proof.
  intros H H' P. rewrite (judge_perm s l H), (judge_perm s' l' H').
  assert (E : ssort l = ssort l') by (apply ssort_canonical; exact P).
  rewrite E. reflexivity.
Qed.
