(** * Reading multipart bodies. *)
From Coq Require Import Lia.
From Verif Require Import GoStr Codec StrFacts Core CodecSpec CodecFacts Http HttpSpec HttpFacts.

(** ** The parameters of a media type *)
Lemma one_value_get (l : kvs) k v : one_value l -> In (k, v) l -> kv_get k l = Some v.
Proof.
  intros HO HI. destruct (kv_get k l) as [x|] eqn:E.
  - apply kv_get_in in E. f_equal. eapply HO; eauto.
  - exfalso. clear HO. induction l as [|[a b] l IH]; [destruct HI|]. cbn [kv_get] in E. destruct (seqb k a) eqn:X; [discriminate|].
    destruct HI as [HI|HI]; [injection HI as -> ->; rewrite seqb_refl in X; discriminate|auto].
Qed.
Lemma no_get (l : kvs) k : (forall v, ~ In (k, v) l) -> kv_get k l = None.
Proof. intros H. destruct (kv_get k l) as [v|] eqn:E; [|reflexivity]. exfalso. apply (H v). apply kv_get_in. exact E. Qed.

Lemma media_params_read s l : media_params s l -> forall n seen, (String.length s < n)%nat -> one_value seen ->
  (one_value (seen ++ l)%list -> exists l', media_params_of n seen s = Some l' /\ forall k v, In (k, v) l' <-> In (k, v) (seen ++ l)%list) /\
  (~ one_value (seen ++ l)%list -> media_params_of n seen s = None).
Proof.
  induction 1 as [w H|o1 o2 nm raw v rest l H1 H2 H3 H4 H IH]; intros n seen Hn Hs.
  - rewrite app_nil_r. destruct n as [|n]; [lia|]. cbn [media_params_of].
    assert (E : trim_left w = "") by (rewrite <- (app_nil_s w), (trim_blanks w "" H); reflexivity).
    rewrite E. cbn. split; [|tauto]. intros _. exists seen. tauto.
  - destruct n as [|n]; [lia|].
    assert (HL : (String.length rest < n)%nat) by (rewrite !str_length_app in Hn; simpl in Hn; lia).
    cbn [media_params_of]. rewrite (media_param_some o1 o2 nm raw v rest) by (eauto; eapply params_off; eauto).
    rewrite (trim_blanks _ _ H1). change (trim_left (";" ++ o2 ++ nm ++ "=" ++ raw ++ rest)%string) with (String ";" (o2 ++ nm ++ "=" ++ raw ++ rest)%string).
    cbn [String.eqb]. cbv iota.
    destruct (kv_get (to_lower nm) seen) as [y|] eqn:E.
    + apply kv_get_in in E. destruct (seqb y v) eqn:Ev.
      * apply seqb_eq in Ev. subst y.
        assert (X : forall k x, In (k, x) (seen ++ (to_lower nm, v) :: l)%list <-> In (k, x) (seen ++ l)%list).
        { intros k x. rewrite !in_app_iff. simpl. split; [|tauto]. intros [A|[A|A]]; auto. injection A as <- <-. auto. }
        assert (Y : one_value (seen ++ (to_lower nm, v) :: l)%list <-> one_value (seen ++ l)%list).
        { unfold one_value. split; intros HO k x x' A B; apply (HO k); apply X; assumption. }
        destruct (IH n seen HL Hs) as [I1 I2]. split.
        -- intros HO. destruct (I1 (proj1 Y HO)) as (l' & L1 & L2). exists l'. split; [exact L1|]. intros k x. rewrite L2. symmetry. apply X.
        -- intros HO. apply I2. tauto.
      * split; [|reflexivity]. intros HO. exfalso. apply seqb_neq in Ev. apply Ev. apply (HO (to_lower nm)); apply in_or_app; simpl; auto.
    + assert (X : forall k x, In (k, x) (((to_lower nm, v) :: seen) ++ l)%list <-> In (k, x) (seen ++ (to_lower nm, v) :: l)%list).
      { intros k x. simpl. rewrite !in_app_iff. simpl. tauto. }
      assert (Y : one_value (((to_lower nm, v) :: seen) ++ l)%list <-> one_value (seen ++ (to_lower nm, v) :: l)%list).
      { unfold one_value. split; intros HO k x x' A B; apply (HO k); apply X; assumption. }
      destruct (IH n ((to_lower nm, v) :: seen) HL (one_value_seen _ _ _ Hs E)) as [I1 I2]. split.
      * intros HO. destruct (I1 (proj2 Y HO)) as (l' & L1 & L2). exists l'. split; [exact L1|]. intros k x. rewrite L2. apply X.
      * intros HO. apply I2. tauto.
Qed.

Lemma parse_media_text pre t rest l : blanks pre ->
  (forall a, In a (list_ascii_of_string t) -> white a = false /\ a <> ";"%char) -> media_params rest l ->
  (one_value l -> exists l', parse_media (pre ++ t ++ rest) = Some (to_lower t, l') /\ forall k v, In (k, v) l' <-> In (k, v) l) /\
  (~ one_value l -> parse_media (pre ++ t ++ rest) = None).
Proof.
  intros HP HTw HR.
  assert (HPw : forall a, In a (list_ascii_of_string pre) -> white a = true) by (intros a Ha; apply white_blank; auto).
  assert (C : exists post r, blanks post /\ ((r = None /\ rest = post /\ l = []) \/ exists r', r = Some r' /\ rest = (post ++ String ";" r')%string /\
              media_params (String ";" r') l)).
  { destruct HR as [w Hw|o1 o2 n raw v rest l' H1 H2 H3 H4 H5].
    - exists w, None. auto.
    - exists o1, (Some (o2 ++ n ++ "=" ++ raw ++ rest)%string). split; [exact H1|]. right. eexists. split; [reflexivity|]. split; [reflexivity|].
      apply (mp_param "" o2 n raw v rest l'); auto. intros a []. }
  destruct C as (post & r & Hpost & C).
  assert (HQ : forall a, In a (list_ascii_of_string post) -> white a = true) by (intros a Ha; apply white_blank; auto).
  assert (HS : has_byte ";" (pre ++ t ++ post) = false).
  { apply no_byte_has. intros HI. rewrite !in_ascii_app in HI. destruct HI as [HI|[HI|HI]].
    - apply HPw in HI. discriminate HI.
    - apply HTw in HI. destruct HI as [_ HI]. contradiction.
    - apply HQ in HI. discriminate HI. }
  assert (HN : to_lower (trim_space (pre ++ t ++ post)) = to_lower t).
  { f_equal. unfold trim_space. rewrite trim_left_app by exact HPw.
    destruct t as [|a t']; [|].
    - assert (X : forall u, (u = "" -> trim_left (u ++ post) = trim_left post)%string) by (intros u ->; reflexivity).
      rewrite (X "" eq_refl). rewrite <- (app_nil_s post), trim_left_app by exact HQ. reflexivity.
    - change ((String a t' ++ post)%string) with (String a (t' ++ post)%string). rewrite trim_left_id by (apply HTw; simpl; auto).
      change (String a (t' ++ post)%string) with (String a t' ++ post)%string. rewrite trim_right_app by exact HQ.
      apply trim_right_id. intros b Hb. apply HTw. exact Hb. }
  unfold parse_media. destruct C as [(-> & E & ->)|(r' & -> & E & HM)].
  - rewrite E, (cut_none _ _ HS), HN. split; [|intros X; exfalso; apply X; intros k v v' []]. intros _. exists []. split; [reflexivity|]. tauto.
  - replace (pre ++ t ++ rest)%string with ((pre ++ t ++ post) ++ String ";" r')%string by (rewrite E, !app_assoc_s; reflexivity).
    rewrite (cut_app ";" _ _ HS), HN.
    assert (N0 : one_value []) by (intros k v v' []).
    assert (HL : (String.length (String ";" r') < String.length r' + 2)%nat) by (simpl; lia).
    destruct (media_params_read _ _ HM (String.length r' + 2) [] HL N0) as [I1 I2]. cbn [app] in I1, I2. split.
    + intros HO. destruct (I1 HO) as (l' & L1 & L2). exists l'. rewrite L1. split; [reflexivity|exact L2].
    + intros HO. rewrite (I2 HO). reflexivity.
Qed.

Lemma token_word t : token_text t -> forall a, In a (list_ascii_of_string t) -> white a = false /\ a <> ";"%char.
Proof. intros H a Ha. apply (token_bytes _ H) in Ha. apply token_plain in Ha. tauto. Qed.
Lemma content_type_media ct t l : content_type ct t l ->
  (one_value l -> exists l', parse_media ct = Some (to_lower t, l') /\ forall k v, In (k, v) l' <-> In (k, v) l) /\
  (~ one_value l -> parse_media ct = None).
Proof.
  intros (pre & x & y & rest & -> & HP & -> & HX & HY & HR). apply parse_media_text; [exact HP| |exact HR].
  intros a Ha. rewrite !in_ascii_app in Ha. destruct Ha as [Ha|[Ha|Ha]]; [exact (token_word _ HX _ Ha)| |exact (token_word _ HY _ Ha)].
  simpl in Ha. destruct Ha as [<-|[]]. split; [reflexivity|discriminate].
Qed.

(** ** Prefixes and lines *)
Lemma after_prefix_iff p s r : after_prefix p s = Some r <-> s = (p ++ r)%string.
Proof.
  revert s. induction p as [|a p IH]; intros s; [simpl; split; [congruence|congruence]|]. destruct s as [|c s]; [split; discriminate|].
  cbn [after_prefix]. change ((String a p ++ r)%string) with (String a (p ++ r)%string). destruct (Ascii.eqb a c) eqn:E.
  - apply Ascii.eqb_eq in E. subst c. rewrite IH. split; [intros ->; reflexivity|congruence].
  - apply Ascii.eqb_neq in E. split; [discriminate|congruence].
Qed.
Lemma after_prefix_app p r : after_prefix p (p ++ r) = Some r.
Proof. apply after_prefix_iff. reflexivity. Qed.
Lemma after_prefix_none p s : (forall r, s <> p ++ r)%string -> after_prefix p s = None.
Proof. intros H. destruct (after_prefix p s) as [r|] eqn:E; [|reflexivity]. apply after_prefix_iff in E. exfalso. exact (H r E). Qed.

(* two ways to cut a string *)
Lemma app_cut a b c d : (a ++ b = c ++ d)%string -> (exists q, a = c ++ q /\ d = q ++ b)%string \/ (exists x m, c = a ++ String x m /\ b = String x m ++ d)%string.
Proof.
  revert c. induction a as [|x a IH]; intros c E.
  - destruct c as [|y c]; [left; exists ""; auto|]. right. exists y, c. auto.
  - destruct c as [|y c]; [left; exists (String x a); auto|]. simpl in E. injection E as <- E. destruct (IH _ E) as [(q & -> & ->)|(z & m & -> & ->)].
    + left. exists q. auto.
    + right. exists z, m. auto.
Qed.

Lemma next_line_app s r : ~ In "010"%char (list_ascii_of_string s) -> next_line (s ++ String "010" r) = ((s ++ String "010" "")%string, Some r).
Proof.
  induction s as [|a s IH]; intros H; [reflexivity|]. change ((String a s ++ String "010" r)%string) with (String a (s ++ String "010" r)%string).
  cbn [next_line]. assert (E : Ascii.eqb a "010" = false) by (apply Ascii.eqb_neq; intros ->; apply H; simpl; auto).
  rewrite E, IH by (intros X; apply H; simpl; auto). reflexivity.
Qed.
Lemma next_line_end s : ~ In "010"%char (list_ascii_of_string s) -> next_line s = (s, None).
Proof.
  induction s as [|a s IH]; intros H; [reflexivity|]. cbn [next_line].
  assert (E : Ascii.eqb a "010" = false) by (apply Ascii.eqb_neq; intros ->; apply H; simpl; auto).
  rewrite E, IH by (intros X; apply H; simpl; auto). reflexivity.
Qed.
Lemma crlf_line s r : one_line s -> next_line (s ++ CRLF ++ r) = ((s ++ CRLF)%string, Some r).
Proof.
  intros H. replace (s ++ CRLF ++ r)%string with ((s ++ String "013" "") ++ String "010" r)%string by (rewrite app_assoc_s; reflexivity).
  rewrite next_line_app.
  - rewrite app_assoc_s. reflexivity.
  - intros X. rewrite in_ascii_app in X. destruct X as [X|X]; [apply H in X; destruct X; contradiction|]. simpl in X. destruct X as [X|[]]; discriminate.
Qed.
Lemma skip_blanks_app sp s : blanks sp -> skip_blanks (sp ++ s) = skip_blanks s.
Proof.
  induction sp as [|a sp IH]; intros H; [reflexivity|]. change ((String a sp ++ s)%string) with (String a (sp ++ s)%string). cbn [skip_blanks].
  rewrite IH by (intros b Hb; apply H; simpl; auto). destruct (H a) as [-> | ->]; [simpl; auto|reflexivity|reflexivity].
Qed.
Lemma blanks_line sp : blanks sp -> one_line sp.
Proof. intros H a Ha. destruct (H a Ha) as [-> | ->]; split; discriminate. Qed.
Lemma one_line_app s t : one_line s -> one_line t -> one_line (s ++ t).
Proof. intros H1 H2 a Ha. rewrite in_ascii_app in Ha. destruct Ha; auto. Qed.
Lemma hyphens_line : one_line "--".
Proof. intros a Ha. simpl in Ha. intuition subst; discriminate. Qed.

(** ** Delimiters *)
Definition plain (b : string) : Prop := forall a, In a (list_ascii_of_string b) -> bchar a.
Lemma plain_line b : plain b -> one_line b.
Proof. intros H a Ha. apply H in Ha. split; intros ->; cbn in Ha; repeat (destruct Ha as [Ha|Ha]; [discriminate|]); exact Ha. Qed.
Lemma boundary_line b : plain b -> one_line ("--" ++ b).
Proof. intros H. apply one_line_app; [exact hyphens_line|exact (plain_line _ H)]. Qed.

Lemma delimiter_yes b sp : blanks sp -> delimiter_line crlf b (("--" ++ b ++ sp) ++ CRLF) = true.
Proof.
  intros H. unfold delimiter_line. replace (("--" ++ b ++ sp) ++ CRLF)%string with (("--" ++ b) ++ sp ++ CRLF)%string by (rewrite !app_assoc_s; reflexivity).
  rewrite after_prefix_app, (skip_blanks_app _ _ H). reflexivity.
Qed.
Lemma delimiter_lf b sp : blanks sp -> delimiter_line (String "010" "") b (("--" ++ b ++ sp) ++ CRLF) = false.
Proof.
  intros H. unfold delimiter_line. replace (("--" ++ b ++ sp) ++ CRLF)%string with (("--" ++ b) ++ sp ++ CRLF)%string by (rewrite !app_assoc_s; reflexivity).
  rewrite after_prefix_app, (skip_blanks_app _ _ H). reflexivity.
Qed.
Lemma not_hyphens x p : (forall y, x <> ("--" ++ y)%string) -> after_prefix ("--" ++ p) (x ++ CRLF) = None.
Proof.
  intros H. apply after_prefix_none. intros r E. destruct x as [|a [|c x]]; [discriminate E|discriminate E|].
  simpl in E. injection E as -> -> _. exact (H x eq_refl).
Qed.
Lemma preamble_line x nl b : (forall y, x <> ("--" ++ y)%string) -> delimiter_line nl b (x ++ CRLF) = false /\ final_line nl b (x ++ CRLF) = false.
Proof. intros H. unfold delimiter_line, final_line. rewrite !not_hyphens by exact H. auto. Qed.

Lemma next_more b sp rest : plain b -> blanks sp -> next_delimiter crlf b (CRLF ++ "--" ++ b ++ sp ++ CRLF ++ rest) = Some (Some rest).
Proof.
  intros HB HS. unfold next_delimiter.
  change (next_line (CRLF ++ "--" ++ b ++ sp ++ CRLF ++ rest)%string) with (CRLF, Some ("--" ++ b ++ sp ++ CRLF ++ rest)%string).
  destruct (preamble_line "" crlf b) as [X Y]; [discriminate|]. cbn [append] in X, Y. rewrite X, Y.
  change (CRLF =s? crlf)%string with true. cbv iota.
  replace ("--" ++ b ++ sp ++ CRLF ++ rest)%string with (("--" ++ b ++ sp) ++ CRLF ++ rest)%string by (rewrite !app_assoc_s; reflexivity).
  rewrite crlf_line by (rewrite <- app_assoc_s; apply one_line_app; [exact (boundary_line _ HB)|exact (blanks_line _ HS)]).
  rewrite (delimiter_yes _ _ HS). reflexivity.
Qed.
Lemma next_last b z : plain b -> z = "" \/ (exists e, z = (CRLF ++ e)%string) -> next_delimiter crlf b (CRLF ++ "--" ++ b ++ "--" ++ z) = Some None.
Proof.
  intros HB HZ. unfold next_delimiter.
  change (next_line (CRLF ++ "--" ++ b ++ "--" ++ z)%string) with (CRLF, Some ("--" ++ b ++ "--" ++ z)%string).
  destruct (preamble_line "" crlf b) as [X Y]; [discriminate|]. cbn [append] in X, Y. rewrite X, Y.
  change (CRLF =s? crlf)%string with true. cbv iota.
  assert (HL : one_line ("--" ++ b ++ "--")) by (apply one_line_app; [exact hyphens_line|apply one_line_app; [exact (plain_line _ HB)|exact hyphens_line]]).
  destruct HZ as [->|(e & ->)].
  - rewrite app_nil_s. rewrite next_line_end by (intros I; apply HL in I; destruct I; contradiction).
    unfold final_line. replace ("--" ++ b ++ "--")%string with (("--" ++ b ++ "--") ++ "")%string at 2 by apply app_nil_s. rewrite after_prefix_app. reflexivity.
  - replace ("--" ++ b ++ "--" ++ CRLF ++ e)%string with (("--" ++ b ++ "--") ++ CRLF ++ e)%string by (rewrite !app_assoc_s; reflexivity).
    rewrite (crlf_line _ _ HL). unfold delimiter_line, final_line.
    rewrite after_prefix_app. replace (("--" ++ b ++ "--") ++ CRLF)%string with (("--" ++ b) ++ "--" ++ CRLF)%string at 1 by (rewrite !app_assoc_s; reflexivity).
    rewrite after_prefix_app. reflexivity.
Qed.

(** ** The content of a part *)
Lemma no_straddle b x y rest : plain b -> (forall q, String x y <> CRLF ++ "--" ++ b ++ q)%string ->
  after_prefix (crlf ++ "--" ++ b) (String x y ++ CRLF ++ "--" ++ b ++ rest) = None.
Proof.
  intros HB H. apply after_prefix_none. intros r E. apply app_cut in E. destruct E as [(q & E & _)|(c & m & E1 & E2)].
  - apply (H q). rewrite E, !app_assoc_s. reflexivity.
  - assert (c = "013"%char) as -> by (change (CRLF ++ "--" ++ b ++ rest)%string with (String "013" (String "010" ("--" ++ b ++ rest))) in E2; simpl in E2; congruence).
    simpl in E1. injection E1 as _ E1.
    assert (I : In "013"%char (list_ascii_of_string (String "010" ("--" ++ b)))).
    { change (String "010" ("--" ++ b)) with (String "010" (String "-" (String "-" b))). rewrite E1, in_ascii_app. right. simpl. auto. }
    destruct I as [I|I]; [discriminate|]. apply (boundary_line _ HB) in I. destruct I; contradiction.
Qed.
Lemma scan_app b v rest : plain b -> (forall p q, v <> p ++ CRLF ++ "--" ++ b ++ q)%string -> ends_delimiter rest = true ->
  scan (crlf ++ "--" ++ b) (v ++ CRLF ++ "--" ++ b ++ rest) = Some (v, (CRLF ++ "--" ++ b ++ rest)%string).
Proof.
  intros HB H HE. induction v as [|x v IH].
  - change (("" ++ CRLF ++ "--" ++ b ++ rest)%string) with ((CRLF ++ "--" ++ b ++ rest)%string).
    assert (E : after_prefix (crlf ++ "--" ++ b) (CRLF ++ "--" ++ b ++ rest) = Some rest) by (apply after_prefix_iff; rewrite !app_assoc_s; reflexivity).
    change (CRLF ++ "--" ++ b ++ rest)%string with (String "013" (String "010" ("--" ++ b ++ rest))) in *. cbn [scan]. rewrite E, HE. reflexivity.
  - pose proof (no_straddle b x v rest HB (fun q E => H "" q E)) as N.
    change ((String x v ++ CRLF ++ "--" ++ b ++ rest)%string) with (String x (v ++ CRLF ++ "--" ++ b ++ rest)%string) in *.
    cbn [scan]. rewrite N, IH; [reflexivity|]. intros p q E. apply (H (String x p) q). rewrite E. reflexivity.
Qed.
Lemma content_app b v rest : plain b -> no_delimiter b v -> ends_delimiter rest = true ->
  part_content crlf b (v ++ CRLF ++ "--" ++ b ++ rest) = Some (v, (CRLF ++ "--" ++ b ++ rest)%string).
Proof.
  intros HB [H1 H2] HE. unfold part_content. rewrite after_prefix_none; [apply scan_app; assumption|].
  intros r E. apply app_cut in E. destruct E as [(q & E & _)|(c & m & E1 & E2)].
  - apply (H2 q). rewrite E, app_assoc_s. reflexivity.
  - assert (c = "013"%char) as -> by (change (CRLF ++ "--" ++ b ++ rest)%string with (String "013" (String "010" ("--" ++ b ++ rest))) in E2; simpl in E2; congruence).
    assert (I : In "013"%char (list_ascii_of_string ("--" ++ b))) by (rewrite E1, in_ascii_app; right; simpl; auto).
    apply (boundary_line _ HB) in I. destruct I; contradiction.
Qed.

(** ** The header of a part *)
Lemma line_text_crlf s : one_line s -> line_text (s ++ CRLF) = s.
Proof.
  intros H. unfold line_text. replace (s ++ CRLF)%string with ((s ++ String "013" "") ++ String "010" "")%string by (rewrite app_assoc_s; reflexivity).
  rewrite cut_app.
  - rewrite cut_app; [reflexivity|]. apply no_byte_has. intros X. apply H in X. destruct X; contradiction.
  - apply no_byte_has. intros X. rewrite in_ascii_app in X. destruct X as [X|X]; [apply H in X; destruct X; contradiction|]. simpl in X. destruct X as [X|[]]; discriminate.
Qed.
Lemma white_six a : white a = true -> In a [" "%char; "009"%char; "010"%char; "011"%char; "012"%char; "013"%char].
Proof. bytes a; vm_compute; intros H; try discriminate H; auto 10. Qed.
Lemma trim_value sp v : blanks sp -> one_line v -> no_space_around v -> trim_space (sp ++ v) = v.
Proof.
  intros HS HL HN. unfold trim_space. rewrite (trim_blanks _ _ HS).
  assert (W : forall a, In a (list_ascii_of_string v) -> (exists t, v = String a t) \/ (exists t, v = t ++ String a "")%string -> white a = false).
  { intros a Ha Hx. destruct (white a) eqn:E; [|reflexivity]. apply white_six in E. exfalso. apply (HN a Hx). apply HL in Ha. destruct Ha.
    simpl in *. intuition. }
  assert (E : trim_left v = v).
  { destruct v as [|a v]; [reflexivity|]. apply trim_left_id. apply W; [simpl; auto|left; eauto]. }
  rewrite E. clear E HN HS HL.
  assert (X : v = "" \/ exists t a, v = (t ++ String a "")%string).
  { clear W. induction v as [|a v IH]; [auto|]. right. destruct IH as [->|(t & c & ->)]; [exists "", a; reflexivity|exists (String a t), c; reflexivity]. }
  destruct X as [->|(t & a & ->)]; [reflexivity|].
  assert (Wa : white a = false) by (apply W; [rewrite in_ascii_app; simpl; auto|right; eauto]). clear W.
  induction t as [|c t IH]; [simpl; rewrite Wa; reflexivity|]. change ((String c t ++ String a "")%string) with (String c (t ++ String a "")%string).
  cbn [trim_right]. rewrite IH. destruct t; reflexivity.
Qed.
Lemma header_read h l : header_lines h l -> forall s n, (String.length h < n)%nat -> part_header n (h ++ s) = Some (l, s).
Proof.
  induction 1 as [|nm sp v rest l H1 H2 H3 H4 H IH]; intros s n Hn; (destruct n as [|n]; [lia|]).
  - reflexivity.
  - assert (HL : one_line (nm ++ ":" ++ sp ++ v)).
    { apply one_line_app; [|apply one_line_app; [|apply one_line_app; [apply blanks_line; exact H2|exact H3]]].
      - intros a Ha. apply (token_bytes _ H1) in Ha. split; intros ->; discriminate Ha.
      - intros a [<-|[]]. split; discriminate. }
    replace ((nm ++ ":" ++ sp ++ v ++ CRLF ++ rest) ++ s)%string with ((nm ++ ":" ++ sp ++ v) ++ CRLF ++ (rest ++ s))%string by (rewrite !app_assoc_s; reflexivity).
    cbn [part_header]. rewrite (crlf_line _ _ HL), (line_text_crlf _ HL).
    assert (E : (nm ++ ":" ++ sp ++ v =s? "")%string = false).
    { apply seqb_neq. destruct nm; discriminate. }
    rewrite E. change (nm ++ ":" ++ sp ++ v)%string with (nm ++ String ":" (sp ++ v))%string.
    rewrite cut_app.
    + rewrite IH by (rewrite !str_length_app in Hn; simpl in Hn; lia). cbn [option_map fst snd]. rewrite trim_value by assumption. reflexivity.
    + apply no_byte_has. intros X. apply (token_bytes _ H1) in X. discriminate X.
Qed.
Lemma header_some h l : header_lines h l -> (2 <= String.length h)%nat.
Proof. induction 1 as [|nm sp v rest l H1 H2 H3 H4 H IH]; [simpl; lia|]. rewrite !str_length_app. simpl. lia. Qed.
Lemma field_read h k v s : names_field h k -> exists l, part_header (S (String.length (h ++ s))) (h ++ s) = Some (l, s) /\ part_value l v = Some [(k, v)].
Proof.
  intros (l & d & t & rest & ps & H1 & H2 & H3 & -> & H5 & H6 & H7 & H8 & H9 & H10 & H11 & _). exists l. split.
  - apply header_read; [exact H1|]. rewrite str_length_app. lia.
  - unfold part_value. rewrite (no_get l _ H3). apply first_get in H2. rewrite H2. cbn [or_empty].
    change (to_lower "" =s? "quoted-printable")%string with false. cbv iota.
    destruct (parse_media_text "" t rest ps) as [P _]; [intros a []|exact (token_word _ H5)|exact H7|].
    destruct (P H8) as (l' & L1 & L2). cbn [append] in L1. rewrite L1, H6.
    assert (O' : one_value l') by (intros x y z A B; apply L2 in A, B; eauto).
    assert (N : kv_get "name" l' = Some k) by (apply one_value_get; [exact O'|apply L2; exact H9]).
    assert (F : kv_get "filename" l' = None) by (apply no_get; intros f X; apply L2 in X; exact (H11 f X)).
    rewrite N, F. cbn [or_empty]. apply seqb_neq in H10. rewrite H10. reflexivity.
Qed.

(** ** The whole body *)
Lemma fields_long b s l : fields b s l -> (fold_right N.add 0 (map (fun p => N.of_nat (String.length (snd p))) l) <= N.of_nat (String.length s))%N /\ (1 <= String.length s)%nat.
Proof.
  induction 1 as [h k v z H1 H2 H3|h k v sp rest l H1 H2 H3 H IH]; rewrite !str_length_app; cbn [map fold_right snd]; simpl String.length; lia.
Qed.
Lemma ends_sp sp s : blanks sp -> ends_delimiter (sp ++ CRLF ++ s) = true.
Proof. destruct sp as [|a sp]; [reflexivity|]. intros H. simpl. destruct (H a) as [-> | ->]; [simpl; auto|reflexivity|reflexivity]. Qed.
Lemma fields_read b s l : plain b -> fields b s l -> forall n, (String.length s < n)%nat -> read_parts n crlf b s = Some l.
Proof.
  intros HB. induction 1 as [h k v z H1 H2 H3|h k v sp rest l H1 H2 H3 H IH]; intros n Hn; (destruct n as [|n]; [lia|]).
  - destruct (field_read h k v (v ++ CRLF ++ "--" ++ b ++ "--" ++ z) H1) as (l & L1 & L2). cbn [read_parts]. rewrite L1.
    rewrite content_app by (auto; reflexivity). rewrite L2, next_last by assumption. reflexivity.
  - destruct (field_read h k v (v ++ CRLF ++ "--" ++ b ++ sp ++ CRLF ++ rest) H1) as (l0 & L1 & L2). cbn [read_parts]. rewrite L1.
    rewrite content_app by (auto; apply ends_sp; assumption). rewrite L2, next_more by assumption.
    rewrite IH by (rewrite !str_length_app in Hn; simpl in Hn; lia). reflexivity.
Qed.
Lemma delimiter_first b s l : plain b -> multipart_text b s l -> forall n, (String.length s < n)%nat ->
  exists rest, first_delimiter n b s = Some (Some (crlf, rest)) /\ fields b rest l /\ (String.length rest <= String.length s)%nat.
Proof.
  intros HB. induction 1 as [sp rest l H1 H2|x body l H1 H2 H IH]; intros n Hn; (destruct n as [|n]; [lia|]).
  - exists rest. cbn [first_delimiter].
    replace ("--" ++ b ++ sp ++ CRLF ++ rest)%string with (("--" ++ b ++ sp) ++ CRLF ++ rest)%string by (rewrite !app_assoc_s; reflexivity).
    rewrite crlf_line by (rewrite <- app_assoc_s; apply one_line_app; [exact (boundary_line _ HB)|exact (blanks_line _ H1)]).
    rewrite (delimiter_lf _ _ H1), (delimiter_yes _ _ H1). split; [reflexivity|]. split; [exact H2|]. rewrite !str_length_app. lia.
  - cbn [first_delimiter]. rewrite (crlf_line _ _ H1).
    destruct (preamble_line x (String "010" "") b H2) as [X1 _]. destruct (preamble_line x crlf b H2) as [X2 X3]. rewrite X1, X2, X3.
    destruct (IH n) as (rest & R1 & R2 & R3); [rewrite !str_length_app in Hn; simpl in Hn; lia|].
    exists rest. split; [exact R1|]. split; [exact R2|]. rewrite !str_length_app. lia.
Qed.
Lemma multipart_read b s l : plain b -> multipart_text b s l -> (N.of_nat (String.length s) <= 10485760)%N -> multipart_values b s = Some l.
Proof.
  intros HB H HL. unfold multipart_values. destruct (delimiter_first _ _ _ HB H (S (String.length s))) as (rest & R1 & R2 & R3); [lia|].
  rewrite R1, (fields_read _ _ _ HB R2) by lia. destruct (fields_long _ _ _ R2) as [S1 _].
  assert (E : N.leb (fold_right N.add 0%N (map (fun p : string * string => N.of_nat (String.length (snd p))) l)) 44040192 = true) by (apply N.leb_le; lia).
  rewrite E. reflexivity.
Qed.

(** ** What arrives *)
Lemma multipart_arrives w body query : sent_multipart w body query ->
  r_query (arrives w) = query /\ r_body (arrives w) = [] /\ r_parts (arrives w) = body.
Proof.
  intros [H1 (ct & t & l & b & H2 & H3 & H4 & H5 & _ & H6 & H7 & H8 & H9 & H10)]. split; [apply form_text_iff; exact H1|]. split.
  - cbn [arrives r_body]. unfold form_body. rewrite H2. cbn [or_empty]. rewrite (proj1 (media_type_text _ _ _ H3) H5), H4.
    rewrite andb_false_r. reflexivity.
  - cbn [arrives r_parts]. unfold wire_parts. rewrite H2. cbn [or_empty].
    destruct (proj1 (content_type_media _ _ _ H3) H5) as (l' & L1 & L2). rewrite L1, H4.
    change ("multipart/form-data" =s? "multipart/form-data")%string with true. cbv iota.
    assert (O' : one_value l') by (intros x y z A B; apply L2 in A, B; eauto).
    rewrite (one_value_get l' "boundary" b O') by (apply L2; exact H6). rewrite (multipart_read _ _ _ H8 H9 H10). reflexivity.
Qed.
Lemma form_no_parts w : says_form w -> wire_parts w = [].
Proof.
  intros (ct & t & l & HK & HC & HT & HO). unfold wire_parts. rewrite HK. cbn [or_empty].
  destruct (proj1 (content_type_media _ _ _ HC) HO) as (l' & -> & _). rewrite HT. reflexivity.
Qed.
