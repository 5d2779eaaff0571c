(** * Reading forms. *)
From Coq Require Import Lia Permutation.
From Verif Require Import GoStr Codec StrFacts Core CodecSpec CodecFacts Http HttpSpec.

Lemma hex_val_digit a n : hex_val a = Some n <-> hex_digit a n.
Proof.
  split.
  - intros H. assert (X : hex_val a = Some n -> exists m, N_of_ascii a = m) by eauto.
    unfold hex_val in H. rewrite <- (ascii_N_embedding a).
    destruct (N.leb 48 (N_of_ascii a) && N.leb (N_of_ascii a) 57)%bool eqn:E1.
    { injection H as <-. apply andb_true_iff in E1. destruct E1 as [A B]. apply N.leb_le in A, B.
      replace (N_of_ascii a) with (48 + (N_of_ascii a - 48))%N at 1 by lia. apply hx_digit. lia. }
    destruct (N.leb 65 (N_of_ascii a) && N.leb (N_of_ascii a) 70)%bool eqn:E2.
    { injection H as <-. apply andb_true_iff in E2. destruct E2 as [A B]. apply N.leb_le in A, B.
      replace (N_of_ascii a) with (55 + (N_of_ascii a - 55))%N at 1 by lia. apply hx_upper. lia. }
    destruct (N.leb 97 (N_of_ascii a) && N.leb (N_of_ascii a) 102)%bool eqn:E3; [|discriminate].
    injection H as <-. apply andb_true_iff in E3. destruct E3 as [A B]. apply N.leb_le in A, B.
    replace (N_of_ascii a) with (87 + (N_of_ascii a - 87))%N at 1 by lia. apply hx_lower. lia.
  - intros H. assert (Y : forall m, (m < 256)%N -> N_of_ascii (ascii_of_N m) = m) by (intros; apply N_ascii_embedding; assumption).
    unfold hex_val. destruct H as [n H|n H|n H]; rewrite Y by lia.
    + destruct (N.leb_spec 48 (48 + n)); [|lia]. destruct (N.leb_spec (48 + n) 57); [|lia]. cbn [andb]. f_equal. lia.
    + destruct (N.leb_spec (55 + n) 57); [lia|]. rewrite andb_false_r.
      destruct (N.leb_spec 65 (55 + n)); [|lia]. destruct (N.leb_spec (55 + n) 70); [|lia]. cbn [andb]. f_equal. lia.
    + destruct (N.leb_spec (87 + n) 57); [lia|]. destruct (N.leb_spec (87 + n) 70); [lia|]. rewrite !andb_false_r.
      destruct (N.leb_spec 97 (87 + n)); [|lia]. destruct (N.leb_spec (87 + n) 102); [|lia]. cbn [andb]. f_equal. lia.
Qed.
Lemma hex_clean a n : hex_digit a n -> Ascii.eqb a "&" = false /\ Ascii.eqb a ";" = false.
Proof. intros H. apply hex_val_digit in H. bytes a; try discriminate H; split; reflexivity. Qed.

(* text without separators *)
Definition plain (s : string) : Prop := has_byte "&" s = false /\ has_byte ";" s = false.
Lemma plain_cons a s : plain (String a s) <-> Ascii.eqb a "&" = false /\ Ascii.eqb a ";" = false /\ plain s.
Proof. unfold plain. simpl. rewrite !orb_false_iff. tauto. Qed.

Lemma stands_qunescape s t : stands_for s t -> qunescape s = Some t /\ plain s.
Proof.
  induction 1 as [|s t H [IH1 IH2]|h l x y s t Hh Hl H [IH1 IH2]|a s t N1 N2 N3 N4 H [IH1 IH2]].
  - repeat split.
  - simpl. rewrite IH1. repeat split; apply IH2.
  - pose proof (hex_clean _ _ Hh) as [C1 C2]. pose proof (hex_clean _ _ Hl) as [C3 C4].
    apply hex_val_digit in Hh, Hl. split.
    + simpl. rewrite Hh, Hl, IH1. reflexivity.
    + rewrite !plain_cons. repeat split; try assumption; try reflexivity; apply IH2.
  - apply Ascii.eqb_neq in N1, N2, N3, N4. split.
    + simpl. rewrite N2, IH1, N1. reflexivity.
    + rewrite plain_cons. auto.
Qed.

Lemma qunescape_stands n : forall s t, String.length s <= n -> qunescape s = Some t -> plain s -> stands_for s t.
Proof.
  induction n as [|n IH]; intros s t HL H HP.
  { destruct s; [|simpl in HL; lia]. injection H as <-. constructor. }
  destruct s as [|a s]; [injection H as <-; constructor|]. simpl in HL. cbn [qunescape] in H. rewrite plain_cons in HP. destruct HP as (P1 & P2 & P3).
  destruct (Ascii.eqb a "%") eqn:E.
  - apply Ascii.eqb_eq in E. subst a. destruct s as [|h [|l r]]; try discriminate H.
    destruct (hex_val h) as [x|] eqn:Hh; [|discriminate H]. destruct (hex_val l) as [y|] eqn:Hl; [|discriminate H].
    destruct (qunescape r) as [u|] eqn:Hr; [|discriminate H]. injection H as <-. apply hex_val_digit in Hh, Hl.
    apply sf_hex; try assumption. apply IH; [simpl in HL; lia|exact Hr|].
    rewrite !plain_cons in P3. tauto.
  - destruct (qunescape s) as [u|] eqn:Hs; [|discriminate H]. injection H as <-. assert (X : stands_for s u) by (apply IH; [lia|exact Hs|exact P3]).
    destruct (Ascii.eqb a "+") eqn:E2.
    + apply Ascii.eqb_eq in E2. subst a. apply sf_plus. exact X.
    + apply Ascii.eqb_neq in E, E2, P1, P2. apply sf_byte; assumption.
Qed.
Lemma stands_iff s t : stands_for s t <-> qunescape s = Some t /\ plain s.
Proof. split; [apply stands_qunescape|]. intros [H1 H2]. eapply qunescape_stands; [|exact H1|exact H2]. reflexivity. Qed.
Lemma plain_app s t : plain (s ++ t) <-> plain s /\ plain t.
Proof. unfold plain. rewrite !has_byte_app, !orb_false_iff. tauto. Qed.

(* one component *)
Definition pair_of (w : string) : option (string * string) :=
  if has_byte ";" w then None else if w =s? "" then None
  else let '(k, v, _) := cut "=" w in
       match qunescape k, qunescape v with Some k', Some v' => Some (k', v') | _, _ => None end.
Lemma form_pairs_cons w ws : form_pairs (w :: ws) = match pair_of w with Some p => p :: form_pairs ws | None => form_pairs ws end.
Proof.
  cbn [form_pairs]. unfold pair_of. destruct (has_byte ";" w); [reflexivity|]. destruct (w =s? ""); [reflexivity|].
  destruct (cut "=" w) as [[k v] f]. destruct (qunescape k); [|reflexivity]. destruct (qunescape v); reflexivity.
Qed.

Lemma pair_component w p : no_byte "&" w -> (pair_of w = Some p <-> component w p).
Proof.
  intros HA. apply no_byte_has in HA. unfold pair_of. split.
  - destruct (has_byte ";" w) eqn:ES; [discriminate|]. destruct (seqb w "") eqn:EE; [discriminate|].
    destruct (cut "=" w) as [[k v] f] eqn:EC. destruct (cut_spec _ _ _ _ _ EC) as [C1 C2].
    destruct (qunescape k) as [k'|] eqn:Ek; [|discriminate]. destruct (qunescape v) as [v'|] eqn:Ev; [|discriminate].
    intros H. injection H as <-. apply no_byte_has in C1. destruct f.
    + subst w. rewrite has_byte_app in HA, ES. apply orb_false_iff in HA, ES. simpl in HA, ES. destruct HA as [A1 A2], ES as [S1 S2].
      apply (comp_pair k v); try assumption; apply stands_iff; split; try assumption; split; assumption.
    + destruct C2 as [-> ->]. injection Ev as <-. apply comp_name; [|apply stands_iff; split; [exact Ek|split; assumption]|exact C1].
      intros ->. discriminate EE.
  - intros H. destruct H as [n v k x H1 H2 H3|n k H1 H2 H3].
    + apply stands_iff in H1, H3. destruct H1 as [H1 [P1 P2]], H3 as [H3 [P3 P4]]. apply no_byte_has in H2.
      rewrite !has_byte_app, P2, P4. cbn [has_byte Ascii.eqb orb Bool.eqb].
      assert (E : (n ++ "=" ++ v =s? "") = false) by (apply seqb_neq; destruct n; discriminate). rewrite E.
      change ("=" ++ v)%string with (String "=" v). rewrite cut_app by exact H2. rewrite H1, H3. reflexivity.
    + apply stands_iff in H2. destruct H2 as [H2 [P1 P2]]. apply no_byte_has in H3. rewrite P2.
      assert (E : (n =s? "") = false) by (apply seqb_neq; exact H1). rewrite E, cut_none by exact H3. rewrite H2. reflexivity.
Qed.

Lemma components_iff ws l : Forall (no_byte "&") ws -> (components ws l <-> form_pairs ws = l).
Proof.
  intros HF. revert l. induction HF as [|w ws Hw HF IH]; intros l.
  - split; [intros H; inversion H; reflexivity|intros <-; constructor].
  - rewrite form_pairs_cons. split.
    + intros H. inversion H as [|w' p ws' l' H1 H2|w' ws' l' H1 H2]; subst.
      * apply (pair_component _ _ Hw) in H1. rewrite H1. f_equal. apply IH. exact H2.
      * destruct (pair_of w) as [p|] eqn:E; [exfalso; apply (H1 p); apply pair_component; assumption|]. apply IH. exact H2.
    + intros <-. destruct (pair_of w) as [p|] eqn:E.
      * apply cs_some; [apply pair_component; assumption|]. apply IH. reflexivity.
      * apply cs_none; [|apply IH; reflexivity]. intros p H. apply (pair_component _ _ Hw) in H. congruence.
Qed.

Lemma form_text_iff q l : form_text q l <-> parse_form q = l.
Proof.
  split.
  - intros (ws & HN & -> & HF & HC). unfold parse_form. rewrite <- (join_concat "&").
    rewrite (split_join "&" ws HN) by (eapply Forall_impl; [|exact HF]; intros w Hw; apply no_byte_has; exact Hw).
    apply components_iff; assumption.
  - intros <-. exists (split_on "&" q). split; [apply split_on_nonempty|]. split.
    { rewrite <- (join_concat "&"). symmetry. apply join_split. }
    assert (HF : Forall (no_byte "&") (split_on "&" q)).
    { eapply Forall_impl; [|apply split_on_no_sep]. intros w Hw. apply no_byte_has. exact Hw. }
    split; [exact HF|]. apply components_iff; [exact HF|reflexivity].
Qed.

(** ** The content type *)
Lemma in_ascii_app a s t : In a (list_ascii_of_string (s ++ t)) <-> In a (list_ascii_of_string s) \/ In a (list_ascii_of_string t).
Proof. induction s as [|b s IH]; simpl; [tauto|]. rewrite IH. tauto. Qed.
Lemma app_nil_s s : (s ++ "")%string = s.
Proof. induction s as [|a s IH]; simpl; congruence. Qed.
Lemma white_blank a : a = " "%char \/ a = "009"%char -> white a = true.
Proof. intros [->| ->]; reflexivity. Qed.
Lemma trim_left_app p s : (forall a, In a (list_ascii_of_string p) -> white a = true) -> trim_left (p ++ s) = trim_left s.
Proof.
  induction p as [|a p IH]; intros H; [reflexivity|]. simpl. rewrite (H a) by (simpl; auto). apply IH. intros b Hb. apply H. simpl. auto.
Qed.
Lemma trim_right_white p : (forall a, In a (list_ascii_of_string p) -> white a = true) -> trim_right p = "".
Proof.
  induction p as [|a p IH]; intros H; [reflexivity|]. simpl. rewrite IH by (intros b Hb; apply H; simpl; auto). rewrite (H a) by (simpl; auto). reflexivity.
Qed.
Lemma trim_right_app p s : (forall a, In a (list_ascii_of_string p) -> white a = true) -> trim_right (s ++ p) = trim_right s.
Proof.
  intros H. induction s as [|a s IH]; simpl; [apply trim_right_white; exact H|]. rewrite IH. reflexivity.
Qed.
(* text that neither starts nor ends with white space *)
Lemma trim_left_id a s : white a = false -> trim_left (String a s) = String a s.
Proof. intros H. simpl. rewrite H. reflexivity. Qed.
Lemma lower_white a b : lower_byte a = b -> white b = false -> white a = false.
Proof. intros <-. bytes a; vm_compute; auto. Qed.
Lemma trim_right_id s : (forall a, In a (list_ascii_of_string s) -> white a = false) -> trim_right s = s.
Proof.
  induction s as [|a s IH]; intros H; [reflexivity|]. simpl. rewrite IH by (intros b Hb; apply H; simpl; auto).
  rewrite (H a) by (simpl; auto). destruct s; reflexivity.
Qed.
Lemma to_lower_in s a : In a (list_ascii_of_string s) -> In (lower_byte a) (list_ascii_of_string (to_lower s)).
Proof. induction s as [|b s IH]; intros []; simpl; [left; congruence|right; auto]. Qed.
Lemma to_lower_app s t : to_lower (s ++ t) = to_lower s ++ to_lower t.
Proof. induction s as [|a s IH]; [reflexivity|]. simpl. f_equal. exact IH. Qed.

(** *** Parameters of the media type *)
Lemma str_length_app s t : String.length (s ++ t) = (String.length s + String.length t)%nat.
Proof. induction s as [|a s IH]; simpl; auto. Qed.
Lemma tchar_token a : tchar a -> token_byte a = true.
Proof. intros H. cbn in H. repeat (destruct H as [<-|H]; [reflexivity|]). destruct H. Qed.
Lemma token_plain a : token_byte a = true -> white a = false /\ a <> ";"%char /\ a <> dquote.
Proof. intros H. repeat split; try (intros ->; discriminate H). revert H. bytes a; vm_compute; auto. Qed.
Lemma token_bytes t : token_text t -> forall a, In a (list_ascii_of_string t) -> token_byte a = true.
Proof. intros [_ H] a Ha. apply tchar_token. auto. Qed.
Definition off_token (s : string) : Prop := match s with "" => True | String a _ => token_byte a = false end.
Lemma consume_token_app t rest : (forall a, In a (list_ascii_of_string t) -> token_byte a = true) -> off_token rest ->
  consume_token (t ++ rest) = (t, rest).
Proof.
  induction t as [|a t IH]; intros H HR.
  - destruct rest as [|b rest]; [reflexivity|]. simpl in HR. simpl. rewrite HR. reflexivity.
  - simpl. rewrite (H a) by (simpl; auto). rewrite IH by (auto; intros b Hb; apply H; simpl; auto). reflexivity.
Qed.
Lemma trim_blanks o s : blanks o -> trim_left (o ++ s) = trim_left s.
Proof. intros H. apply trim_left_app. intros a Ha. apply white_blank. auto. Qed.
Lemma trim_token t s : token_text t -> trim_left (t ++ s) = (t ++ s)%string.
Proof.
  intros HT. destruct t as [|a t]; [destruct (proj1 HT eq_refl)|]. apply trim_left_id. apply token_plain. apply (token_bytes _ HT). simpl. auto.
Qed.
Lemma special_in a : In a (list_ascii_of_string "()<>@,;:\""/[]?=") -> tspecial a = true.
Proof. intros H. cbn in H. repeat (destruct H as [<-|H]; [reflexivity|]). destruct H. Qed.
Lemma quoted_value_app s v rest : in_quotes s v -> quoted_value (s ++ String dquote rest) = Some (v, rest).
Proof.
  induction 1 as [|a s t H1 H2 H3 H4 H IH|a s t H1 H IH]; [reflexivity| |].
  - apply Ascii.eqb_neq in H1, H2, H3, H4. change ((String a s ++ String dquote rest)%string) with (String a (s ++ String dquote rest)%string).
    cbn [quoted_value]. rewrite H1, H2, H3, H4, IH. reflexivity.
  - change ((String "\" (String a s) ++ String dquote rest)%string) with (String "\" (String a (s ++ String dquote rest)))%string.
    cbn [quoted_value]. rewrite (special_in _ H1), IH. reflexivity.
Qed.
Lemma consume_value_app raw v rest : param_value raw v -> off_token rest -> consume_value (raw ++ rest) = (v, rest) /\
  trim_left (raw ++ rest) = (raw ++ rest)%string /\ (raw ++ rest <> rest)%string.
Proof.
  intros [t HT|s t HQ] HR.
  - split.
    + pose proof (consume_token_app t rest (token_bytes _ HT) HR) as X. destruct t as [|a t]; [destruct (proj1 HT eq_refl)|].
      unfold consume_value. change ((String a t ++ rest)%string) with (String a (t ++ rest)%string). cbv iota.
      assert (E : Ascii.eqb a dquote = false).
      { apply Ascii.eqb_neq. apply token_plain. apply (token_bytes _ HT). simpl. auto. }
      rewrite E. exact X.
    + split; [apply trim_token; exact HT|]. intros E. apply (f_equal String.length) in E. rewrite str_length_app in E.
      destruct t; [destruct (proj1 HT eq_refl)|simpl in E; lia].
  - change ((String dquote (s ++ String dquote "") ++ rest)%string) with (String dquote ((s ++ String dquote "") ++ rest)%string).
    rewrite app_assoc_s. change ((String dquote "" ++ rest)%string) with (String dquote rest).
    split; [|split; [reflexivity|]].
    + unfold consume_value. rewrite Ascii.eqb_refl, (quoted_value_app _ _ _ HQ). reflexivity.
    + intros E. apply (f_equal String.length) in E. simpl in E. rewrite str_length_app in E. simpl in E. lia.
Qed.
Lemma blank_off o s : blanks o -> off_token s -> off_token (o ++ s).
Proof. destruct o as [|a o]; [auto|]. intros H _. simpl. destruct (H a) as [->| ->]; [simpl; auto|reflexivity|reflexivity]. Qed.
Lemma params_off s l : media_params s l -> off_token s.
Proof.
  intros [w H|o1 o2 n raw v rest l' H1 _ _ _ _].
  - rewrite <- (app_nil_s w). apply blank_off; [exact H|exact I].
  - apply blank_off; [exact H1|reflexivity].
Qed.
Lemma media_param_none w : blanks w -> media_param w = None.
Proof. intros H. unfold media_param. rewrite <- (app_nil_s w), (trim_blanks w "" H). reflexivity. Qed.
Lemma media_param_some o1 o2 n raw v rest : blanks o1 -> blanks o2 -> token_text n -> param_value raw v -> off_token rest ->
  media_param (o1 ++ ";" ++ o2 ++ n ++ "=" ++ raw ++ rest) = Some (to_lower n, v, rest).
Proof.
  intros H1 H2 H3 H4 H5. unfold media_param. rewrite (trim_blanks _ _ H1).
  change (trim_left (";" ++ o2 ++ n ++ "=" ++ raw ++ rest)%string) with (String ";" (o2 ++ n ++ String "=" (raw ++ rest))%string).
  cbv iota. rewrite (trim_blanks _ _ H2), (trim_token _ _ H3).
  rewrite (consume_token_app n (String "=" (raw ++ rest)) (token_bytes _ H3) eq_refl).
  assert (E : (n =s? "")%string = false). { apply seqb_neq. exact (proj1 H3). }
  rewrite E. change (trim_left (String "=" (raw ++ rest)%string)) with (String "=" (raw ++ rest)%string). cbv iota zeta.
  destruct (consume_value_app raw v rest H4 H5) as (V1 & V2 & V3). rewrite V2, V1.
  assert (E2 : (rest =s? raw ++ rest)%string = false). { apply seqb_neq. congruence. }
  rewrite E2, andb_false_r. reflexivity.
Qed.
Lemma one_value_seen seen k x : one_value seen -> kv_get k seen = None -> one_value ((k, x) :: seen).
Proof.
  intros H HN k' v v' [E1|I1] [E2|I2].
  - congruence.
  - injection E1 as <- <-. exfalso. clear H. induction seen as [|[a b] seen IH]; [destruct I2|]. cbn [kv_get] in HN.
    destruct (seqb k a) eqn:Hd; [discriminate|]. destruct I2 as [I2|I2]; [injection I2 as -> ->; rewrite seqb_refl in Hd; discriminate|auto].
  - injection E2 as <- <-. exfalso. clear H. induction seen as [|[a b] seen IH]; [destruct I1|]. cbn [kv_get] in HN.
    destruct (seqb k a) eqn:Hd; [discriminate|]. destruct I1 as [I1|I1]; [injection I1 as -> ->; rewrite seqb_refl in Hd; discriminate|auto].
  - eauto.
Qed.
Lemma kv_get_in k (l : kvs) v : kv_get k l = Some v -> In (k, v) l.
Proof.
  induction l as [|[a b] l IH]; [discriminate|]. cbn [kv_get]. destruct (seqb k a) eqn:Hd; [apply seqb_eq in Hd; subst a; intros E; injection E as ->; simpl; auto|simpl; auto].
Qed.
Lemma params_agree_iff s l : media_params s l -> forall n seen, (String.length s <= n)%nat -> one_value seen ->
  params_agree n seen s = true <-> one_value (seen ++ l)%list.
Proof.
  induction 1 as [w H|o1 o2 nm raw v rest l H1 H2 H3 H4 H IH]; intros n seen Hn Hs.
  - rewrite app_nil_r. destruct n; simpl; [tauto|]. rewrite media_param_none by exact H. tauto.
  - destruct n as [|n]; [exfalso; rewrite !str_length_app in Hn; simpl in Hn; lia|].
    assert (HL : (String.length rest <= n)%nat) by (rewrite !str_length_app in Hn; simpl in Hn; lia).
    cbn [params_agree]. rewrite (media_param_some o1 o2 nm raw v rest) by (eauto; eapply params_off; eauto).
    destruct (kv_get (to_lower nm) seen) as [y|] eqn:E.
    + rewrite andb_true_iff, (IH n seen HL Hs), seqb_eq. apply kv_get_in in E. split.
      * intros [-> HO] k x x' A B. apply in_app_or in A, B.
        assert (X : forall z, In (k, z) seen \/ In (k, z) ((to_lower nm, v) :: l) -> In (k, z) (seen ++ l)%list).
        { intros z [Z|[Z|Z]]; apply in_or_app; auto. injection Z as <- <-. auto. }
        apply (HO k); auto.
      * intros HO. split.
        -- apply (HO (to_lower nm)); apply in_or_app; [left; exact E|right; left; reflexivity].
        -- intros k x x' A B. apply (HO k); apply in_or_app; [apply in_app_or in A; destruct A; simpl; auto|apply in_app_or in B; destruct B; simpl; auto].
    + rewrite (IH n ((to_lower nm, v) :: seen) HL (one_value_seen _ _ _ Hs E)).
      split; intros HO k x x' A B; apply (HO k); simpl; rewrite in_app_iff in *; simpl in *; tauto.
Qed.

Lemma one_value_dec (l : kvs) : one_value l \/ ~ one_value l.
Proof.
  assert (X : (exists p q, In p l /\ In q l /\ fst p = fst q /\ snd p <> snd q) \/ one_value l).
  { set (bad := existsb (fun p => existsb (fun q => (fst p =s? fst q) && negb (snd p =s? snd q))%bool l) l). destruct bad eqn:E; unfold bad in E.
    - left. apply existsb_exists in E. destruct E as (p & Hp & E). apply existsb_exists in E. destruct E as (q & Hq & E).
      apply andb_true_iff in E. destruct E as [E1 E2]. apply seqb_eq in E1. apply negb_true_iff in E2. apply seqb_neq in E2. exists p, q. auto.
    - right. intros k v v' H1 H2. destruct (seqb v v') eqn:Ev; [apply seqb_eq in Ev; exact Ev|]. exfalso.
      assert (T : existsb (fun p => existsb (fun q => (fst p =s? fst q) && negb (snd p =s? snd q))%bool l) l = true).
      { apply existsb_exists. exists (k, v). split; [exact H1|]. apply existsb_exists. exists (k, v'). split; [exact H2|]. simpl.
        rewrite seqb_refl, Ev. reflexivity. }
      congruence. }
  destruct X as [([k v] & [k' v'] & H1 & H2 & H3 & H4)|X]; [|auto]. right. intros H. simpl in *. subst k'. apply H4. eapply H; eauto.
Qed.

(** A well-formed Content-Type names a form if its type is that of forms and no
    parameter has two values. *)
Lemma media_type_text ct t l : content_type ct t l ->
  (one_value l -> media_type ct = to_lower t) /\ (~ one_value l -> media_type ct = "").
Proof.
  intros (pre & x & y & rest & -> & HP & -> & HX & HY & HR).
  assert (HTw : forall a, In a (list_ascii_of_string (x ++ "/" ++ y)) -> white a = false /\ a <> ";"%char).
  { intros a Ha. rewrite !in_ascii_app in Ha. destruct Ha as [Ha|[Ha|Ha]].
    - apply (token_bytes _ HX) in Ha. apply token_plain in Ha. tauto.
    - simpl in Ha. destruct Ha as [<-|[]]. split; [reflexivity|discriminate].
    - apply (token_bytes _ HY) in Ha. apply token_plain in Ha. tauto. }
  set (t := (x ++ "/" ++ y)%string) in *.
  assert (HPw : forall a, In a (list_ascii_of_string pre) -> white a = true) by (intros a Ha; apply white_blank; auto).
  assert (C : exists post r, blanks post /\ ((r = None /\ rest = post) \/ exists r', r = Some r' /\ rest = (post ++ String ";" r')%string /\
              (String.length (String ";" r') <= String.length r' + 1)%nat /\ media_params (String ";" r') l)).
  { destruct HR as [w Hw|o1 o2 n raw v rest l' H1 H2 H3 H4 H5].
    - exists w, None. auto.
    - exists o1, (Some (o2 ++ n ++ "=" ++ raw ++ rest)%string). split; [exact H1|]. right. eexists. split; [reflexivity|]. split; [reflexivity|].
      split; [simpl; lia|]. apply (mp_param "" o2 n raw v rest l'); auto. intros a []. }
  destruct C as (post & r & Hpost & C).
  assert (HQ : forall a, In a (list_ascii_of_string post) -> white a = true) by (intros a Ha; apply white_blank; auto).
  assert (HS : has_byte ";" (pre ++ t ++ post) = false).
  { apply no_byte_has. intros HI. rewrite !in_ascii_app in HI. destruct HI as [HI|[HI|HI]].
    - apply HPw in HI. discriminate HI.
    - apply HTw in HI. destruct HI as [_ HI]. contradiction.
    - apply HQ in HI. discriminate HI. }
  assert (HN : to_lower (trim_space (pre ++ t ++ post)) = to_lower t).
  { f_equal. unfold trim_space. rewrite trim_left_app by exact HPw.
    destruct t as [|a t']; [|].
    - assert (X : forall u, (u = "" -> trim_left (u ++ post) = trim_left post)%string) by (intros u ->; reflexivity).
      rewrite (X "" eq_refl). rewrite <- (app_nil_s post), trim_left_app by exact HQ. reflexivity.
    - change ((String a t' ++ post)%string) with (String a (t' ++ post)%string). rewrite trim_left_id by (apply HTw; simpl; auto).
      change (String a (t' ++ post)%string) with (String a t' ++ post)%string. rewrite trim_right_app by exact HQ.
      apply trim_right_id. intros b Hb. apply HTw. exact Hb. }
  unfold media_type. destruct C as [[-> E]|(r' & -> & E & HL & HM)].
  - rewrite E, (cut_none _ _ HS), HN. split; [reflexivity|]. intros X. exfalso. apply X.
    clear - HR E Hpost. destruct HR as [w Hw|o1 o2 n raw v rest l' H1 H2 H3 H4 H5]; [intros k v v' []|].
    assert (I : In ";"%char (list_ascii_of_string post)) by (rewrite <- E, !in_ascii_app; simpl; auto).
    apply Hpost in I. destruct I as [I|I]; discriminate I.
  - replace (pre ++ t ++ rest)%string with ((pre ++ t ++ post) ++ String ";" r')%string by (rewrite E, !app_assoc_s; reflexivity).
    rewrite (cut_app ";" _ _ HS), HN.
    assert (N0 : one_value []) by (intros k v v' []).
    pose proof (params_agree_iff _ _ HM (String.length r' + 1) [] HL N0) as I. cbn [app] in I.
    destruct (params_agree (String.length r' + 1) [] (String ";" r')) eqn:EP.
    + split; [reflexivity|]. intros X. exfalso. apply X, I. reflexivity.
    + split; [|reflexivity]. intros X. apply I in X. congruence.
Qed.
Lemma says_form_body w : says_form w -> form_body w = true.
Proof.
  intros (ct & t & l & HK & HC & HT & HO). unfold form_body. rewrite HK. cbn [or_empty].
  rewrite (proj1 (media_type_text _ _ _ HC) HO), HT. reflexivity.
Qed.

(** ** Values *)
Lemma first_get k l v : first_value k l v <-> kv_get k l = Some v.
Proof.
  induction l as [|[k' v'] l IH]; simpl.
  - split; [intros H; inversion H|discriminate].
  - destruct (seqb k k') eqn:E.
    + apply seqb_eq in E. subst k'. split; [|intros H; injection H as ->; constructor].
      intros H. inversion H; subst; [reflexivity|congruence].
    + rewrite <- IH. split; [|intros H; constructor; [intros ->; rewrite seqb_refl in E; discriminate|exact H]].
      intros H. inversion H; subst; [rewrite seqb_refl in E; discriminate|assumption].
Qed.
Lemma get_none k l : kv_get k l = None <-> forall v, ~ first_value k l v.
Proof.
  split.
  - intros H v X. apply first_get in X. congruence.
  - intros H. destruct (kv_get k l) as [v|] eqn:E; [|reflexivity]. exfalso. apply (H v). apply first_get. exact E.
Qed.

Lemma body_method w : has_body (arrives w) = true <-> In (w_method w) ["POST"; "PUT"; "PATCH"].
Proof.
  unfold has_body. cbn [arrives r_method]. rewrite !orb_true_iff, !seqb_eq. simpl. intuition congruence.
Qed.
Lemma reads_method w : reads_body w = true <-> In (w_method w) ["POST"; "PUT"; "PATCH"].
Proof. exact (body_method w). Qed.
Lemma sent_arrives w body query : sent w body query -> r_query (arrives w) = query /\ r_body (arrives w) = body /\ post_form (arrives w) = body.
Proof.
  intros [H1 H2]. split; [apply form_text_iff; exact H1|].
  assert (E : r_body (arrives w) = body).
  { cbn [arrives r_body]. destruct H2 as [(HM & HF & HL & HB)|(HM & _ & ->)].
    - rewrite (proj2 (reads_method w) HM), (says_form_body _ HF). apply N.leb_le in HL. rewrite HL. apply form_text_iff. exact HB.
    - destruct (reads_body w) eqn:E; [|reflexivity]. apply reads_method in E. contradiction. }
  split; [exact E|]. unfold post_form. rewrite E. destruct H2 as [(HM & _)|(HM & _ & ->)].
  - rewrite (proj2 (body_method w) HM). reflexivity.
  - destruct (has_body (arrives w)); reflexivity.
Qed.

(** What is parsed without errors is parsed the same way. *)
Lemma parse_query_form q l : parse_query q = Some l -> parse_form q = l.
Proof.
  unfold parse_query, parse_form. generalize (split_on "&" q). intros ws. revert l.
  induction ws as [|w ws IH]; intros l H; [injection H as <-; reflexivity|]. rewrite form_pairs_cons. unfold pair_of. cbn [parse_pairs] in H.
  destruct (seqb w "") eqn:EE.
  - destruct (has_byte ";" w); apply IH; exact H.
  - destruct (has_byte ";" w); [discriminate|]. destruct (cut "=" w) as [[k v] f].
    destruct (qunescape k); [|discriminate]. destruct (qunescape v); [|discriminate].
    destruct (parse_pairs ws); [|discriminate]. injection H as <-. f_equal. apply IH. reflexivity.
Qed.
