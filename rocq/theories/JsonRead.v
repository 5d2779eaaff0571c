(** * The JSON readers and the grammar: numbers and values. *)
From Coq Require Import Lia.
From Verif Require Import GoStr Codec Json StrFacts Core JsonParse JsonFull CodecSpec HttpSpec JsonSpec JsonFacts JsonGram JsonFloat.

(* what may follow a value *)
Definition ends (r : string) : Prop := forall a t, r = String a t -> In a ["032"; "009"; "010"; "013"; ","; "]"; "}"]%char.
Lemma ends_nil : ends "". Proof. intros a t E. discriminate E. Qed.
Lemma ends_ws w r : ws w -> ends r -> ends (w ++ r).
Proof.
  destruct w as [|b w]; [auto|]. intros W _ a t E. injection E as <- _. apply ws_cons in W. destruct W as [W _]. simpl in *. tauto.
Qed.
Lemma ends_in b r : In b [","; "]"; "}"]%char -> ends (String b r).
Proof. intros H a t E. injection E as <- _. simpl in *. tauto. Qed.

(** ** Digits *)
Lemma digit_iff a : In a (list_ascii_of_string "0123456789") <-> is_digit a = true.
Proof.
  split.
  - intros H. simpl in H. repeat (destruct H as [<-|H]; [reflexivity|]). destruct H.
  - intros H. bytes a; try discriminate H; simpl; auto 15.
Qed.
Lemma digits_cons a d : Forall (fun a => In a (list_ascii_of_string "0123456789")) (list_ascii_of_string (String a d)) <->
  is_digit a = true /\ Forall (fun a => In a (list_ascii_of_string "0123456789")) (list_ascii_of_string d).
Proof. cbn [list_ascii_of_string]. rewrite Forall_cons_iff, digit_iff. tauto. Qed.
Definition no_digit (r : string) : Prop := forall a t, r = String a t -> is_digit a = false.
Lemma span_cut s : forall d r, span_digits s = (d, r) -> s = (d ++ r)%string /\
  Forall (fun a => In a (list_ascii_of_string "0123456789")) (list_ascii_of_string d).
Proof.
  induction s as [|a s IH]; intros d r H; cbn [span_digits] in H.
  - injection H as <- <-. split; [reflexivity|constructor].
  - destruct (is_digit a) eqn:E; [|injection H as <- <-; split; [reflexivity|constructor]].
    destruct (span_digits s) as [d' t']. injection H as <- <-. destruct (IH d' t' eq_refl) as [-> H].
    split; [reflexivity|]. apply digits_cons. auto.
Qed.
Lemma span_join d r : Forall (fun a => In a (list_ascii_of_string "0123456789")) (list_ascii_of_string d) -> no_digit r ->
  span_digits (d ++ r) = (d, r).
Proof.
  intros H HR. induction d as [|a d IH]; cbn [append].
  - destruct r as [|b r]; [reflexivity|]. cbn [span_digits]. rewrite (HR b r eq_refl). reflexivity.
  - apply digits_cons in H. destruct H as [HA H]. cbn [span_digits]. rewrite HA, IH by assumption. reflexivity.
Qed.
Lemma digits_decimal_acc d : forall acc, Forall (fun a => In a (list_ascii_of_string "0123456789")) (list_ascii_of_string d) ->
  digits_val acc d = Some (fold_left (fun acc a => (10 * acc + (Z.of_N (N_of_ascii a) - 48))%Z) (list_ascii_of_string d) acc).
Proof.
  induction d as [|a d IH]; intros acc H; [reflexivity|]. apply digits_cons in H. destruct H as [HA H].
  cbn [digits_val list_ascii_of_string fold_left]. rewrite HA, IH by assumption. do 3 f_equal. lia.
Qed.
Lemma digits_decimal d : Forall (fun a => In a (list_ascii_of_string "0123456789")) (list_ascii_of_string d) -> digits_val 0 d = Some (decimal d).
Proof. intros H. apply digits_decimal_acc. exact H. Qed.
Lemma digits_all d : digits d <-> d <> "" /\ Forall (fun a => In a (list_ascii_of_string "0123456789")) (list_ascii_of_string d).
Proof. reflexivity. Qed.
Lemma list_app s t : list_ascii_of_string (s ++ t) = (list_ascii_of_string s ++ list_ascii_of_string t)%list.
Proof. induction s as [|a s IH]; [reflexivity|]. cbn. rewrite IH. reflexivity. Qed.
Lemma decimal_nonneg d : Forall (fun a => In a (list_ascii_of_string "0123456789")) (list_ascii_of_string d) -> (0 <= decimal d)%Z.
Proof.
  unfold decimal. assert (X : forall l acc, Forall (fun a => In a (list_ascii_of_string "0123456789")) l -> (0 <= acc)%Z ->
    (0 <= fold_left (fun acc a => (10 * acc + (Z.of_N (N_of_ascii a) - 48))%Z) l acc)%Z).
  { induction l as [|a l IH]; intros acc H HA; [exact HA|]. inversion H as [|? ? H1 H2]; subst. cbn [fold_left]. apply IH; auto.
    assert (48 <= Z.of_N (N_of_ascii a))%Z; [|lia]. clear - H1. simpl in H1. repeat (destruct H1 as [<-|H1]; [vm_compute; discriminate|]). destruct H1. }
  intros H. apply X; auto. lia.
Qed.
Lemma int_part_iff d : Forall (fun a => In a (list_ascii_of_string "0123456789")) (list_ascii_of_string d) ->
  int_part d = true <-> plain_int d.
Proof.
  intros H. unfold plain_int. rewrite digits_all. destruct d as [|a [|b d]]; cbn [int_part].
  - split; [discriminate|intros [[X _] _]; congruence].
  - split; auto. intros _. repeat split; auto; [discriminate|]. intros r E. injection E as _ <-. reflexivity.
  - rewrite negb_true_iff, Ascii.eqb_neq. split.
    + intros N. repeat split; auto; [discriminate|]. intros r E. injection E as -> _. congruence.
    + intros [_ X] ->. specialize (X _ eq_refl). discriminate X.
Qed.

(** ** Numbers *)
Lemma frac_sound s f r : frac_part s = Some (f, r) -> exists t, s = (t ++ r)%string /\ fraction t f.
Proof.
  intros H. destruct s as [|a s]; cbn [frac_part] in H.
  - injection H as <- <-. exists "". split; [reflexivity|constructor].
  - destruct (Ascii.eqb_spec a ".") as [->|N].
    + destruct (span_digits s) as [d t] eqn:E. apply span_cut in E. destruct E as [-> HD].
      destruct (d =s? "") eqn:E0; [discriminate H|]. injection H as <- <-. exists (String "." d). split; [reflexivity|].
      constructor. split; [|exact HD]. apply seqb_neq. exact E0.
    + injection H as <- <-. exists "". split; [reflexivity|constructor].
Qed.
Lemma frac_complete t f r : fraction t f -> no_digit r -> (forall x, r <> String "." x) -> frac_part (t ++ r) = Some (f, r).
Proof.
  intros H HR HD. destruct H as [|d [HN HD']]; cbn [append].
  - destruct r as [|a r]; [reflexivity|]. cbn [frac_part]. destruct (Ascii.eqb_spec a ".") as [->|N]; [destruct (HD r eq_refl)|reflexivity].
  - cbn [frac_part]. rewrite Ascii.eqb_refl, span_join by assumption. apply seqb_neq in HN. rewrite HN. reflexivity.
Qed.
Definition exp_value (x : option Z) : Z := match x with Some e => e | None => 0%Z end.
Lemma sign_not_digit d r : digits d -> exp_sign (d ++ r) = (false, (d ++ r)%string).
Proof.
  intros [N H]. destruct d as [|a d]; [congruence|]. apply digits_cons in H. destruct H as [H _]. cbn [append exp_sign].
  destruct (Ascii.eqb_spec a "-") as [->|]; [discriminate H|]. destruct (Ascii.eqb_spec a "+") as [->|]; [discriminate H|reflexivity].
Qed.
Lemma exp_letter e : In e ["e"; "E"]%char <-> (Ascii.eqb e "e" || Ascii.eqb e "E")%bool = true.
Proof. rewrite orb_true_iff, !Ascii.eqb_eq. simpl. intuition auto. Qed.
Lemma exp_sound s z r : exp_part s = Some (z, r) -> exists t x, s = (t ++ r)%string /\ exponent t x /\ z = exp_value x.
Proof.
  intros H. destruct s as [|a s]; cbn [exp_part] in H.
  - injection H as <- <-. exists "", None. repeat split. constructor.
  - destruct (Ascii.eqb a "e" || Ascii.eqb a "E")%bool eqn:E.
    + apply exp_letter in E. destruct (exp_sign s) as [neg body] eqn:ES. destruct (span_digits body) as [d t] eqn:ED.
      apply span_cut in ED. destruct ED as [-> HD]. destruct (d =s? "") eqn:E0; [discriminate H|].
      rewrite digits_decimal in H by assumption. injection H as <- <-. apply seqb_neq in E0.
      assert (DD : digits d) by (split; assumption).
      destruct s as [|b s]; cbn [exp_sign] in ES.
      * injection ES as <- E1. destruct d; [congruence|discriminate E1].
      * destruct (Ascii.eqb_spec b "-") as [->|N1].
        { injection ES as <- ->. exists (String a (String "-" d)), (Some (- decimal d)%Z). repeat split. apply ex_minus; assumption. }
        destruct (Ascii.eqb_spec b "+") as [->|N2].
        { injection ES as <- ->. exists (String a (String "+" d)), (Some (decimal d)). repeat split. apply ex_plus; assumption. }
        injection ES as <- E1. exists (String a d), (Some (decimal d)). rewrite E1. repeat split. apply ex_plain; assumption.
    + injection H as <- <-. exists "", None. repeat split. constructor.
Qed.
Lemma exp_complete t x r : exponent t x -> no_digit r -> (forall a y, r = String a y -> ~ In a ["e"; "E"]%char) ->
  exp_part (t ++ r) = Some (exp_value x, r).
Proof.
  intros H HR HE. assert (A : forall d, digits d -> (d =s? "") = false) by (intros d [N _]; apply seqb_neq; exact N).
  destruct H as [|e d He HD|e d He HD|e d He HD]; cbn [append].
  - destruct r as [|a r]; [reflexivity|]. cbn [exp_part]. specialize (HE a r eq_refl). rewrite exp_letter in HE.
    destruct (Ascii.eqb a "e" || Ascii.eqb a "E")%bool; [destruct HE|]; reflexivity.
  - cbn [exp_part]. apply exp_letter in He. rewrite He, sign_not_digit, span_join by (auto; apply HD).
    rewrite (A d HD), digits_decimal by apply HD. reflexivity.
  - cbn [exp_part exp_sign]. apply exp_letter in He. rewrite He. change (Ascii.eqb "+" "-") with false. rewrite Ascii.eqb_refl.
    rewrite span_join by (auto; apply HD). rewrite (A d HD), digits_decimal by apply HD. reflexivity.
  - cbn [exp_part exp_sign]. apply exp_letter in He. rewrite He, Ascii.eqb_refl.
    rewrite span_join by (auto; apply HD). rewrite (A d HD), digits_decimal by apply HD. reflexivity.
Qed.
Lemma exponent_not_digit t x r : exponent t x -> ends r -> no_digit (t ++ r) /\ (forall y, (t ++ r)%string <> String "." y).
Proof.
  intros H HR. assert (L : forall e z, In e ["e"; "E"]%char -> no_digit (String e z) /\ forall y, String e z <> String "." y).
  { intros e z He. simpl in He. destruct He as [<-|[<-|[]]]; (split; [intros b t0 E; injection E as <- _; reflexivity|discriminate]). }
  destruct H; cbn [append]; auto. destruct r as [|a r]; [split; intros; discriminate|].
  pose proof (HR a r eq_refl) as HI. split.
  - intros b t E. injection E as <- _. simpl in HI. repeat (destruct HI as [<-|HI]; [reflexivity|]). destruct HI.
  - intros y E. injection E as -> _. simpl in HI. repeat (destruct HI as [HI|HI]; [discriminate HI|]). destruct HI.
Qed.
Lemma ends_no_digit r : ends r -> no_digit r.
Proof. intros H. exact (proj1 (exponent_not_digit "" None r ex_none H)). Qed.
Lemma ends_no_exp r : ends r -> forall a y, r = String a y -> ~ In a ["e"; "E"]%char.
Proof.
  intros H a y E. pose proof (H a y E) as HI. simpl in HI. repeat (destruct HI as [<-|HI]; [simpl; intuition discriminate|]). destruct HI.
Qed.
Lemma fraction_digits t f : fraction t f -> Forall (fun a => In a (list_ascii_of_string "0123456789")) (list_ascii_of_string f).
Proof. intros H. destruct H as [|d [_ H]]; [constructor|exact H]. Qed.
Lemma pow10_pos e : (0 <= e)%Z -> (0 < 10 ^ e)%Z.
Proof. intros H. apply Z.pow_pos_nonneg; lia. Qed.
Lemma to_int64_spec i : to_int64 i = if (- 2 ^ 63 <=? i)%Z && (i <? 2 ^ 63)%Z then i else (- 2 ^ 63)%Z.
Proof. reflexivity. Qed.

(* the arithmetic of a literal *)
Lemma float_number neg i f x : Forall (fun a => In a (list_ascii_of_string "0123456789")) (list_ascii_of_string (i ++ f)) ->
  let e := (exp_value x - slen f)%Z in forall z,
  (exists z0, float_trunc (decimal (i ++ f) * 10 ^ Z.max 0 e) (10 ^ Z.max 0 (- e)) = Some z0 /\ z = to_int64 (if neg : bool then (- z0)%Z else z0)) <->
  float_int (Number neg i f x) z.
Proof.
  intros HD e z. pose proof (decimal_nonneg _ HD) as HN. unfold float_int, scale. cbn [n_int n_frac n_exp n_minus].
  fold (exp_value x). fold e. set (num := (decimal (i ++ f) * 10 ^ Z.max 0 e)%Z). set (den := (10 ^ Z.max 0 (- e))%Z).
  assert (HB : (0 < den)%Z) by (apply pow10_pos; lia). assert (HA : (0 <= num)%Z) by (pose proof (pow10_pos (Z.max 0 e) ltac:(lia)); unfold num; nia).
  split.
  - intros (z0 & E & ->). pose proof (near_nearest num den HA HB) as NN. exists (near (num * 2 ^ 1074) den). split; [exact NN|].
    rewrite (float_trunc_nearest num den _ HA HB NN) in E.
    destruct (Z.ltb_spec (near (num * 2 ^ 1074) den) (2 ^ 1024 * 2 ^ 1074)) as [L|L]; [|discriminate E]. split; [exact L|].
    injection E as <-. apply to_int64_spec.
  - intros (d & NN & L & ->). exists (d / 2 ^ 1074)%Z. rewrite (float_trunc_nearest num den d HA HB NN).
    apply Z.ltb_lt in L. rewrite L. split; [reflexivity|]. symmetry. apply to_int64_spec.
Qed.
Lemma forall_app_list s t : Forall (fun a => In a (list_ascii_of_string "0123456789")) (list_ascii_of_string s) ->
  Forall (fun a => In a (list_ascii_of_string "0123456789")) (list_ascii_of_string t) ->
  Forall (fun a => In a (list_ascii_of_string "0123456789")) (list_ascii_of_string (s ++ t)).
Proof. intros. rewrite list_app. apply Forall_app. auto. Qed.
Lemma minus_split s : (match s with String "-" r => (true, r) | _ => (false, s) end) = (true, match s with String _ r => r | _ => "" end) /\ (exists r, s = String "-" r) \/
  (match s with String "-" r => (true, r) | _ => (false, s) end) = (false, s) /\ forall r, s <> String "-" r.
Proof.
  destruct s as [|a s]; [right; split; [reflexivity|discriminate]|]. destruct (Ascii.eqb_spec a "-") as [->|N].
  - left. split; [reflexivity|eauto].
  - right. split; [|intros r E; injection E as E _; congruence]. bytes a; try reflexivity. congruence.
Qed.
Lemma fnumber_sound s z r : fnumber s = Some (z, r) -> exists t x, s = (t ++ r)%string /\ number_text t x /\ float_int x z.
Proof.
  intros H. unfold fnumber in H.
  assert (ES : exists neg body, (match s with String "-" r0 => (true, r0) | _ => (false, s) end) = (neg, body) /\ s = ((if neg : bool then "-" else "") ++ body)%string).
  { destruct (minus_split s) as [[E [r0 ->]]|[E _]]; do 2 eexists; (split; [exact E|reflexivity]). }
  destruct ES as (neg & body & E & ->). rewrite E in H. clear E.
  destruct (span_digits body) as [i r1] eqn:ED. apply span_cut in ED. destruct ED as [-> HD].
  destruct (int_part i) eqn:EI; [|discriminate H]. apply int_part_iff in EI; [|assumption].
  destruct (frac_part r1) as [[f r2]|] eqn:EF; [|discriminate H]. apply frac_sound in EF. destruct EF as (tf & -> & HF).
  destruct (exp_part r2) as [[e r3]|] eqn:EE; [|discriminate H]. apply exp_sound in EE. destruct EE as (te & x & -> & HE & ->).
  pose proof (forall_app_list i f HD (fraction_digits _ _ HF)) as HA.
  rewrite (digits_decimal (i ++ f) HA) in H. cbv zeta in H.
  destruct (float_trunc (decimal (i ++ f) * 10 ^ Z.max 0 (exp_value x - slen f)) (10 ^ Z.max 0 (- (exp_value x - slen f)))) as [z0|] eqn:ET; [|discriminate H].
  injection H as <- <-. exists ((if neg then "-" else "") ++ i ++ tf ++ te)%string, (Number neg i f x). split.
  - rewrite !app_assoc_s. reflexivity.
  - split; [exists tf, te; auto|]. apply float_number; auto. eauto.
Qed.
Lemma plain_not_minus i r : digits i -> (match (i ++ r)%string with String "-" t => (true, t) | _ => (false, (i ++ r)%string) end) = (false, (i ++ r)%string).
Proof.
  intros [N H]. destruct i as [|a i]; [congruence|]. apply digits_cons in H. destruct H as [H _]. cbn [append].
  bytes a; (reflexivity || discriminate H).
Qed.
Lemma fnumber_complete t x z r : number_text t x -> float_int x z -> ends r -> fnumber (t ++ r) = Some (z, r).
Proof.
  intros (tf & te & -> & HI & HF & HE) HZ HR. destruct x as [neg i f x]. cbn [n_minus n_int n_frac n_exp] in *.
  pose proof (proj2 (proj1 HI)) as HD. pose proof (forall_app_list i f HD (fraction_digits _ _ HF)) as HA.
  apply float_number in HZ; [|assumption]. destruct HZ as (z0 & ET & ->).
  destruct (exponent_not_digit te x r HE HR) as [N1 N2].
  assert (N3 : no_digit (tf ++ te ++ r)).
  { destruct HF as [|d _]; [exact N1|]. intros a y E. injection E as <- _. reflexivity. }
  assert (EM : (match (((if neg then "-" else "") ++ i ++ tf ++ te) ++ r)%string with String "-" t => (true, t) | _ => (false, (((if neg then "-" else "") ++ i ++ tf ++ te) ++ r)%string) end) =
    (neg, (i ++ tf ++ te ++ r)%string)).
  { rewrite !app_assoc_s. destruct neg; [reflexivity|]. cbn [append]. apply plain_not_minus. apply HI. }
  unfold fnumber. rewrite EM. rewrite span_join by assumption. rewrite (proj2 (int_part_iff i HD) HI).
  rewrite (frac_complete tf f (te ++ r)) by assumption.
  rewrite (exp_complete te x r) by (assumption || (apply ends_no_digit; assumption) || (apply ends_no_exp; assumption)). rewrite (digits_decimal _ HA). cbv zeta. rewrite ET. reflexivity.
Qed.

(** ** Texts of values *)
Scheme value_text_m := Induction for value_text Sort Prop
with elements_text_m := Induction for elements_text Sort Prop
with members_text_m := Induction for members_text Sort Prop
with member_text_m := Induction for member_text Sort Prop.
Combined Scheme text_ind from value_text_m, elements_text_m, members_text_m, member_text_m.

Lemma quoted_app s r : (quoted s ++ r = String dquote (s ++ String dquote r))%string.
Proof. unfold quoted. cbn [append]. rewrite app_assoc_s. reflexivity. Qed.
Lemma elements_ws w s l : ws w -> elements_text s l -> elements_text (w ++ s) l.
Proof.
  intros W H. destruct H; rewrite <- !app_assoc_s, (app_assoc_s _ s w2); rewrite ?(app_assoc_s (w ++ w1)).
  - apply el_last; auto using ws_app.
  - rewrite app_assoc_s, !app_assoc_s. rewrite <- app_assoc_s. apply el_more; auto using ws_app.
Qed.
Ltac asc := repeat first [rewrite app_assoc_s | rewrite quoted_app | progress cbn [append]]; reflexivity.
Lemma members_ws w s l : ws w -> members_text s l -> members_text (w ++ s) l.
Proof.
  intros W H. assert (M : forall m k v, member_text m k v -> member_text (w ++ m) k v).
  { intros m k v X. destruct X as [w1 n k w2 w3 s0 v w4 H1 H2 H3 H4 H5 H6].
    replace (w ++ w1 ++ quoted n ++ w2 ++ ":" ++ w3 ++ s0 ++ w4)%string with ((w ++ w1) ++ quoted n ++ w2 ++ ":" ++ w3 ++ s0 ++ w4)%string by (rewrite app_assoc_s; reflexivity).
    apply mb_intro; auto using ws_app. }
  destruct H.
  - apply mb_last. auto.
  - rewrite <- app_assoc_s. apply mb_more; auto.
Qed.
Lemma word_cut w s r : String.prefix w s = true /\ r = substring (String.length w) (String.length s - String.length w) s <-> s = (w ++ r)%string.
Proof.
  split.
  - revert s r. induction w as [|a w IH]; intros s r [H E].
    + subst r. cbn [String.length append]. rewrite Nat.sub_0_r. clear H. induction s as [|b s IHs]; [reflexivity|]. cbn. f_equal. exact IHs.
    + destruct s as [|b s]; [discriminate H|]. cbn [String.prefix] in H. destruct (ascii_dec a b) as [->|]; [|discriminate H].
      cbn [append]. f_equal. apply IH. split; [exact H|]. exact E.
  - intros ->. split; [apply prefix_app|]. symmetry. apply substring_app.
Qed.
Lemma fword_iff w v s v' r : fword w v s = Some (v', r) <-> v' = v /\ s = (w ++ r)%string.
Proof.
  unfold fword. rewrite <- word_cut. destruct (String.prefix w s).
  - split; [intros H; injection H as <- <-; auto|intros (-> & _ & ->); reflexivity].
  - split; [discriminate|intros (_ & X & _); discriminate X].
Qed.
Lemma jword_iff w v s v' r : jword w v s = Some (v', r) <-> v' = v /\ s = (w ++ r)%string.
Proof.
  unfold jword. rewrite <- word_cut. destruct (String.prefix w s).
  - split; [intros H; injection H as <- <-; auto|intros (-> & _ & ->); reflexivity].
  - split; [discriminate|intros (_ & X & _); discriminate X].
Qed.
Lemma number_first t x : number_text t x -> exists a t', t = String a t' /\ (a = "-"%char \/ is_digit a = true).
Proof.
  intros (f & e & -> & ((N & H) & _) & _). destruct (n_minus x); [cbn [append]; eauto|].
  destruct (n_int x) as [|a d]; [congruence|]. apply digits_cons in H. cbn [append]. do 2 eexists. split; [reflexivity|]. tauto.
Qed.
Lemma value_first t x : value_text t x -> exists a t', t = String a t' /\ ~ In a ["032"; "009"; "010"; "013"; "]"; "}"; ","]%char.
Proof.
  intros H. destruct H; try (do 2 eexists; split; [reflexivity|]; simpl; intuition discriminate).
  destruct (number_first _ _ H) as (a & t' & -> & HA). do 2 eexists. split; [reflexivity|]. intros X. simpl in X.
  destruct HA as [->|HA]; [intuition discriminate|].
  repeat (destruct X as [<-|X]; [discriminate HA|]). destruct X.
Qed.
Lemma value_not_ws t x r : value_text t x -> not_ws (t ++ r).
Proof.
  intros H. destruct (value_first t x H) as (a & t' & -> & N). intros b y E. injection E as <- _. simpl in *. tauto.
Qed.
Lemma value_length t x : value_text t x -> (1 <= String.length t)%nat.
Proof. intros H. destruct (value_first t x H) as (a & t' & -> & _). cbn. lia. Qed.
Lemma not_ws_char a r : ~ In a ["032"; "009"; "010"; "013"]%char -> not_ws (String a r).
Proof. intros H b t E. injection E as <- _. exact H. Qed.
Ltac nws := apply not_ws_char; simpl; intuition discriminate.

(** ** The full reader *)
Lemma full_sound n :
  (forall s v r, fvalue n s = Some (v, r) -> exists w t x, s = (w ++ t ++ r)%string /\ ws w /\ value_text t x /\ keeps x v) /\
  (forall s l r, fmembers n s = Some (l, r) -> exists t lx, s = (t ++ String "}" r)%string /\ members_text t lx /\
     Forall2 (fun p q => fst p = fst q /\ keeps (snd p) (snd q)) lx l) /\
  (forall s l r, felements n s = Some (l, r) -> exists t lx, s = (t ++ String "]" r)%string /\ elements_text t lx /\ Forall2 keeps lx l).
Proof.
  induction n as [|n (IHv & IHm & IHe)]; [repeat split; intros; discriminate|]. split; [|split].
  - intros s v r H. cbn [fvalue] in H. destruct (jskip_cut s) as (w & ES & W & NW). rewrite ES. clear ES.
    destruct (jskip s) as [|a s1]; [discriminate H|]. clear NW.
    assert (K : (exists t x, String a s1 = (t ++ r)%string /\ value_text t x /\ keeps x v) ->
       exists w0 t x, (w ++ String a s1)%string = (w0 ++ t ++ r)%string /\ ws w0 /\ value_text t x /\ keeps x v).
    { intros (t & x & -> & A & B). exists w, t, x. auto. }
    apply K. clear K W w.
    destruct (Ascii.eqb_spec a dquote) as [->|N1].
    { destruct (jliteral s1) as [[t r']|] eqn:E; [|discriminate H]. injection H as <- <-. apply jliteral_iff in E. destruct E as (x & -> & HC).
      exists (quoted x), (RStr x t). split; [symmetry; apply quoted_app|]. split; constructor. exact HC. }
    destruct (Ascii.eqb_spec a "{") as [->|N2].
    { destruct (jskip_cut s1) as (w & ES & W & NW). rewrite ES. clear ES. destruct (jskip s1) as [|b s2]; [discriminate H|].
      destruct (Ascii.eqb_spec b "}") as [->|N3].
      - injection H as <- <-. exists ("{" ++ w ++ "}")%string, (RObj []). split; [asc|]. split; constructor; [exact W|constructor].
      - destruct (fmembers n (String b s2)) as [[l r2]|] eqn:E; [|discriminate H]. injection H as <- <-. apply IHm in E.
        destruct E as (t & lx & -> & HM & HK). exists ("{" ++ (w ++ t) ++ "}")%string, (RObj lx). split; [asc|].
        split; constructor; [|exact HK]. apply members_ws; assumption. }
    destruct (Ascii.eqb_spec a "[") as [->|N4].
    { destruct (jskip_cut s1) as (w & ES & W & NW). rewrite ES. clear ES. destruct (jskip s1) as [|b s2]; [discriminate H|].
      destruct (Ascii.eqb_spec b "]") as [->|N3].
      - injection H as <- <-. exists ("[" ++ w ++ "]")%string, (RArr []). split; [asc|]. split; constructor; [exact W|constructor].
      - destruct (felements n (String b s2)) as [[l r2]|] eqn:E; [|discriminate H]. injection H as <- <-. apply IHe in E.
        destruct E as (t & lx & -> & HM & HK). exists ("[" ++ (w ++ t) ++ "]")%string, (RArr lx). split; [asc|].
        split; constructor; [|exact HK]. apply elements_ws; assumption. }
    destruct (Ascii.eqb_spec a "n") as [->|N5].
    { apply fword_iff in H. destruct H as [-> ->]. exists "null", RNull. repeat split; constructor. }
    destruct (Ascii.eqb_spec a "t") as [->|N6].
    { apply fword_iff in H. destruct H as [-> ->]. exists "true", (RBool true). repeat split; constructor. }
    destruct (Ascii.eqb_spec a "f") as [->|N7].
    { apply fword_iff in H. destruct H as [-> ->]. exists "false", (RBool false). repeat split; constructor. }
    destruct (fnumber (String a s1)) as [[z r']|] eqn:E; [|discriminate H]. injection H as <- <-.
    apply fnumber_sound in E. destruct E as (t & x & E & HT & HF). exists t, (RNum x). split; [exact E|]. split; constructor; assumption.
  - intros s l r H. cbn [fmembers] in H. destruct (jskip_cut s) as (w1 & ES & W1 & _). rewrite ES. clear ES.
    destruct (jskip s) as [|q s1]; [discriminate H|].
    destruct (Ascii.eqb_spec q dquote) as [->|]; [|discriminate H].
    destruct (jliteral s1) as [[k r1]|] eqn:E1; [|discriminate H]. apply jliteral_iff in E1. destruct E1 as (x & -> & HC).
    destruct (jskip_cut r1) as (w2 & ES & W2 & _). rewrite ES. clear ES.
    destruct (jskip r1) as [|c r2]; [discriminate H|]. destruct (Ascii.eqb_spec c ":") as [->|]; [|discriminate H].
    destruct (fvalue n r2) as [[v r3]|] eqn:E2; [|discriminate H]. apply IHv in E2. destruct E2 as (w3 & t & y & -> & W3 & HV & HK).
    destruct (jskip_cut r3) as (w4 & ES & W4 & _). rewrite ES. clear ES.
    destruct (jskip r3) as [|e r4]; [discriminate H|].
    pose proof (mb_intro w1 x k w2 w3 t y w4 W1 HC W2 W3 HV W4) as HM.
    destruct (Ascii.eqb_spec e "}") as [->|].
    { injection H as <- <-. exists (w1 ++ quoted x ++ w2 ++ ":" ++ w3 ++ t ++ w4)%string, [(k, y)]. split; [asc|].
      split; [apply mb_last; exact HM|]. constructor; [split; auto|constructor]. }
    destruct (Ascii.eqb_spec e ",") as [->|]; [|discriminate H].
    destruct (fmembers n r4) as [[l' r5]|] eqn:E3; [|discriminate H]. injection H as <- <-. apply IHm in E3.
    destruct E3 as (t' & lx & -> & HM' & HK').
    exists ((w1 ++ quoted x ++ w2 ++ ":" ++ w3 ++ t ++ w4) ++ "," ++ t')%string, ((k, y) :: lx). split; [asc|].
    split; [apply mb_more; assumption|]. constructor; [split; auto|assumption].
  - intros s l r H. cbn [felements] in H. destruct (fvalue n s) as [[v r3]|] eqn:E2; [|discriminate H].
    apply IHv in E2. destruct E2 as (w3 & t & y & -> & W3 & HV & HK).
    destruct (jskip_cut r3) as (w4 & ES & W4 & _). rewrite ES. clear ES.
    destruct (jskip r3) as [|e r4]; [discriminate H|].
    destruct (Ascii.eqb_spec e "]") as [->|].
    { injection H as <- <-. exists (w3 ++ t ++ w4)%string, [y]. split; [asc|]. split; [apply el_last; auto|]. constructor; [auto|constructor]. }
    destruct (Ascii.eqb_spec e ",") as [->|]; [|discriminate H].
    destruct (felements n r4) as [[l' r5]|] eqn:E3; [|discriminate H]. injection H as <- <-. apply IHe in E3.
    destruct E3 as (t' & lx & -> & HM' & HK').
    exists (w3 ++ t ++ w4 ++ "," ++ t')%string, (y :: lx). split; [asc|].
    split; [apply el_more; assumption|]. constructor; assumption.
Qed.
Lemma jskip_idem s : jskip (jskip s) = jskip s.
Proof. destruct (jskip_cut s) as (w & _ & _ & N). apply (jskip_app "" (jskip s)); [constructor|exact N]. Qed.
Lemma fvalue_skip n s : fvalue n (jskip s) = fvalue n s.
Proof. destruct n; [reflexivity|]. cbn [fvalue]. rewrite jskip_idem. reflexivity. Qed.
Lemma fmembers_skip n s : fmembers n (jskip s) = fmembers n s.
Proof. destruct n; [reflexivity|]. cbn [fmembers]. rewrite jskip_idem. reflexivity. Qed.
Lemma felements_skip n s : felements n (jskip s) = felements n s.
Proof. destruct n; [reflexivity|]. cbn [felements]. rewrite fvalue_skip. reflexivity. Qed.
Lemma elements_first s l r : elements_text s l -> exists a t, jskip (s ++ String "]" r) = String a t /\ a <> "]"%char.
Proof.
  intros H. destruct H as [w1 s w2 v W1 HV W2|w1 s w2 v s' l W1 HV W2 H]; destruct (value_first s v HV) as (a & t & -> & N).
  - exists a, (t ++ w2 ++ String "]" r)%string. split; [|intros ->; apply N; simpl; tauto].
    rewrite app_assoc_s. rewrite jskip_app; [asc|exact W1|]. cbn [append]. apply not_ws_char. simpl in *. tauto.
  - exists a, (t ++ w2 ++ "," ++ s' ++ String "]" r)%string. split; [|intros ->; apply N; simpl; tauto].
    rewrite app_assoc_s. rewrite jskip_app; [asc|exact W1|]. cbn [append]. apply not_ws_char. simpl in *. tauto.
Qed.
Lemma members_first s l r : members_text s l -> exists t, jskip (s ++ r) = String dquote t.
Proof.
  intros H. assert (M : forall m k v r, member_text m k v -> exists t, jskip (m ++ r) = String dquote t).
  { intros m k v r0 X. destruct X as [w1 n k w2 w3 s0 v w4 H1 H2 H3 H4 H5 H6]. rewrite app_assoc_s, app_assoc_s, quoted_app.
    rewrite jskip_app; [eauto|exact H1|nws]. }
  destruct H; [eauto|]. rewrite app_assoc_s. eauto.
Qed.
Ltac inv_keeps := match goal with H : keeps _ _ |- _ => inversion H; subst; clear H end.
Lemma full_complete :
  (forall t x, value_text t x -> forall v n w r, keeps x v -> ws w -> ends r -> (String.length t <= n)%nat ->
     fvalue n (w ++ t ++ r) = Some (v, r)) /\
  (forall t lx, elements_text t lx -> forall l n r, Forall2 keeps lx l -> (String.length t < n)%nat ->
     felements n (t ++ String "]" r) = Some (l, r)) /\
  (forall t lx, members_text t lx -> forall l n r, Forall2 (fun p q => fst p = fst q /\ keeps (snd p) (snd q)) lx l -> (String.length t <= n)%nat ->
     fmembers n (t ++ String "}" r) = Some (l, r)) /\
  (forall t k x, member_text t k x -> forall v n r e, keeps x v -> (String.length t <= n)%nat -> In e [","; "}"]%char ->
     fmembers n (t ++ String e r) = if Ascii.eqb e "}" then Some ([(k, v)], r) else
       match fmembers (pred n) r with Some (l, r5) => Some ((k, v) :: l, r5) | None => None end).
Proof.
  apply text_ind.
  - intros v n w r HK W HR HL. inv_keeps. destruct n; [cbn in HL; lia|]. cbn [fvalue]. rewrite jskip_app; [|exact W|nws].
    apply (proj2 (fword_iff "null" FNull _ _ r)). split; reflexivity.
  - intros v n w r HK W HR HL. inv_keeps. destruct n; [cbn in HL; lia|]. cbn [fvalue]. rewrite jskip_app; [|exact W|nws].
    apply (proj2 (fword_iff "true" (FBool true) _ _ r)). split; reflexivity.
  - intros v n w r HK W HR HL. inv_keeps. destruct n; [cbn in HL; lia|]. cbn [fvalue]. rewrite jskip_app; [|exact W|nws].
    apply (proj2 (fword_iff "false" (FBool false) _ _ r)). split; reflexivity.
  - (* numbers *)
    intros s x HX v n w r HK W HR HL. inv_keeps. pose proof (vt_num s x HX) as HV. pose proof (value_length _ _ HV).
    destruct n; [lia|]. cbn [fvalue]. rewrite jskip_app; [|exact W|eapply value_not_ws; exact HV].
    destruct (number_first s x HX) as (a & t' & -> & HA). cbn [append].
    assert (NE : forall b, is_digit b = false -> b <> "-"%char -> Ascii.eqb a b = false).
    { intros b B1 B2. apply Ascii.eqb_neq. intros ->. destruct HA; congruence. }
    rewrite !NE by (reflexivity || discriminate). change (String a (t' ++ r)) with (String a t' ++ r)%string.
    match goal with X : float_int x _ |- _ => rewrite (fnumber_complete _ x _ r HX X HR) end. reflexivity.
  - intros s t HC v n w r HK W HR HL. inv_keeps. destruct n; [cbn in HL; lia|]. cbn [fvalue]. rewrite quoted_app. rewrite jskip_app; [|exact W|nws].
    rewrite Ascii.eqb_refl. rewrite (proj2 (jliteral_iff _ t r)) by eauto. reflexivity.
  - intros w0 W0 v n w r HK W HR HL. inv_keeps. match goal with X : Forall2 _ [] _ |- _ => inversion X; subst end.
    destruct n; [cbn in HL; lia|]. cbn [fvalue append]. rewrite app_assoc_s. rewrite jskip_app; [|exact W|nws].
    change (Ascii.eqb "[" dquote) with false. change (Ascii.eqb "[" "{") with false. change (Ascii.eqb "[" "[") with true. cbv iota.
    rewrite jskip_app; [|exact W0|nws]. reflexivity.
  - intros s l HE IH v n w r HK W HR HL. inv_keeps. destruct n as [|n]; [cbn in HL; lia|]. cbn [fvalue append]. rewrite app_assoc_s. rewrite jskip_app; [|exact W|nws].
    change (Ascii.eqb "[" dquote) with false. change (Ascii.eqb "[" "{") with false. change (Ascii.eqb "[" "[") with true. cbv iota.
    cbn [append String.length] in HL. rewrite length_app in HL. cbn in HL.
    destruct (elements_first s l r HE) as (a & t & E & N). cbn [append]. rewrite E. apply Ascii.eqb_neq in N. rewrite N. rewrite <- E, felements_skip.
    match goal with X : Forall2 keeps l _ |- _ => rewrite (IH _ n r X) by lia end. reflexivity.
  - intros w0 W0 v n w r HK W HR HL. inv_keeps. match goal with X : Forall2 _ [] _ |- _ => inversion X; subst end.
    destruct n; [cbn in HL; lia|]. cbn [fvalue append]. rewrite app_assoc_s. rewrite jskip_app; [|exact W|nws].
    change (Ascii.eqb "{" dquote) with false. change (Ascii.eqb "{" "{") with true. cbv iota.
    rewrite jskip_app; [|exact W0|nws]. reflexivity.
  - intros s l HE IH v n w r HK W HR HL. inv_keeps. destruct n as [|n]; [cbn in HL; lia|]. cbn [fvalue append]. rewrite app_assoc_s. rewrite jskip_app; [|exact W|nws].
    change (Ascii.eqb "{" dquote) with false. change (Ascii.eqb "{" "{") with true. cbv iota.
    cbn [append String.length] in HL. rewrite length_app in HL. cbn in HL.
    destruct (members_first s l (String "}" r) HE) as (t & E). cbn [append]. rewrite E. change (Ascii.eqb dquote "}") with false. cbv iota. rewrite <- E, fmembers_skip.
    match goal with X : Forall2 _ l _ |- _ => rewrite (IH _ n r X) by lia end. reflexivity.
  - (* elements *)
    intros w1 s w2 x W1 HV IH W2 l n r HF HL. inversion HF as [|? v ? l' HK HF']; subst. inversion HF'; subst.
    rewrite !length_app in HL. destruct n as [|n]; [lia|]. cbn [felements].
    replace ((w1 ++ s ++ w2) ++ String "]" r)%string with (w1 ++ s ++ (w2 ++ String "]" r))%string by asc.
    rewrite (IH v n w1 _ HK W1) by (lia || (apply ends_ws; [exact W2|]; apply ends_in; simpl; tauto)).
    rewrite jskip_app; [|exact W2|nws]. reflexivity.
  - intros w1 s w2 x s' l0 W1 HV IH W2 HE IHe l n r HF HL. inversion HF as [|? v ? l' HK HF']; subst.
    rewrite !length_app in HL. cbn in HL. destruct n as [|n]; [lia|]. cbn [felements].
    replace ((w1 ++ s ++ w2 ++ "," ++ s') ++ String "]" r)%string with (w1 ++ s ++ (w2 ++ String "," (s' ++ String "]" r)))%string by asc.
    rewrite (IH v n w1 _ HK W1) by (lia || (apply ends_ws; [exact W2|]; apply ends_in; simpl; tauto)).
    rewrite jskip_app; [|exact W2|nws]. change (Ascii.eqb "," "]") with false. rewrite Ascii.eqb_refl. cbv iota.
    rewrite (IHe l' n r HF') by lia. reflexivity.
  - (* members *)
    intros m k x HM IH l n r HF HL. inversion HF as [|? [k' v] ? l' HK HF']; subst. inversion HF'; subst. cbn [fst snd] in HK. destruct HK as [<- HK].
    rewrite (IH v n r "}"%char HK HL) by (simpl; tauto). reflexivity.
  - intros m k x s' l0 HM IH HS IHs l n r HF HL. inversion HF as [|? [k' v] ? l' HK HF']; subst. cbn [fst snd] in HK. destruct HK as [<- HK].
    rewrite !length_app in HL. cbn in HL.
    replace ((m ++ "," ++ s') ++ String "}" r)%string with (m ++ String "," (s' ++ String "}" r))%string by asc.
    rewrite (IH v n _ ","%char HK) by (lia || (simpl; tauto)). change (Ascii.eqb "," "}") with false. cbv iota.
    rewrite (IHs l' (pred n) r HF') by lia. reflexivity.
  - intros w1 q k w2 w3 s x w4 W1 HC W2 W3 HV IH W4 v n r e HK HL HE.
    rewrite !length_app in HL. unfold quoted in HL. cbn in HL. rewrite !length_app in HL. cbn in HL. destruct n as [|n]; [lia|]. cbn [fmembers pred].
    replace ((w1 ++ quoted q ++ w2 ++ ":" ++ w3 ++ s ++ w4) ++ String e r)%string with
      (w1 ++ String dquote (q ++ String dquote (w2 ++ String ":" (w3 ++ s ++ (w4 ++ String e r)))))%string by asc.
    rewrite jskip_app; [|exact W1|nws]. rewrite Ascii.eqb_refl. rewrite (proj2 (jliteral_iff _ k (w2 ++ String ":" (w3 ++ s ++ (w4 ++ String e r))))) by eauto.
    rewrite jskip_app; [|exact W2|nws]. rewrite Ascii.eqb_refl.
    assert (E2 : In e [","; "]"; "}"]%char) by (simpl in *; tauto).
    rewrite (IH v n w3 (w4 ++ String e r)%string HK W3) by (lia || (apply ends_ws; [exact W4|]; apply ends_in; exact E2)).
    rewrite jskip_app; [|exact W4|apply not_ws_char; simpl in HE; destruct HE as [<-|[<-|[]]]; simpl; intuition discriminate].
    simpl in HE. destruct HE as [<-|[<-|[]]]; reflexivity.
Qed.
Lemma keeps_depth : forall x v, keeps x v -> depth v = nesting x.
Proof.
  fix IH 1. intros x v H. destruct x as [|b|x|raw s|l|l]; inversion H as [|? |? ? ?|? ?|? l' HF|? l' HF]; subst; try reflexivity; cbn [depth nesting]; f_equal; clear H.
  - revert l' HF. induction l as [|x l IHl]; intros l' HF; inversion HF as [|? v ? l0 HV HF']; subst; [reflexivity|]. cbn [map fold_right].
    rewrite (IHl _ HF'), (IH x _ HV). reflexivity.
  - revert l' HF. induction l as [|[k x] l IHl]; intros l' HF; inversion HF as [|? [k' v] ? l0 HV HF']; subst; [reflexivity|]. cbn [map fold_right]. change (snd (k, x)) with x. cbn [snd fst] in HV. change (snd (k', v)) with v.
    rewrite (IHl _ HF'), (IH x _ (proj2 HV)). reflexivity.
Qed.
Lemma unmarshal_iff s v : unmarshal s = Some v <-> exists x, go_text s x /\ keeps x v.
Proof.
  unfold unmarshal, go_text, within_limit, json_text. split.
  - intros H. destruct (fvalue (S (String.length s)) s) as [[v' r]|] eqn:E; [|discriminate H].
    destruct (jskip r =s? "") eqn:E0; [|discriminate H]. cbn [andb] in H. destruct (N.leb (depth v') max_nesting) eqn:ED; [|discriminate H].
    injection H as ->. apply seqb_eq in E0. apply N.leb_le in ED.
    destruct (jskip_cut r) as (w & ES & W & _). rewrite E0, app_nil_r_s in ES. subst w.
    apply full_sound in E. destruct E as (w & t & x & -> & W' & HV & HK). exists x. rewrite (keeps_depth _ _ HK) in ED.
    split; [|exact HK]. split; [|exact ED]. exists w, t, r. auto.
  - intros (x & ((w1 & t & w2 & -> & W1 & HV & W2) & HD) & HK).
    rewrite (proj1 full_complete t x HV v _ w1 w2 HK W1).
    + rewrite jskip_ws by exact W2. rewrite (keeps_depth _ _ HK). apply N.leb_le in HD. fold max_nesting in HD. rewrite HD. reflexivity.
    + rewrite <- (app_nil_r_s w2). apply ends_ws; [exact W2|apply ends_nil].
    + rewrite !length_app. lia.
Qed.
Lemma object_no_ends t l r v n w : value_text t (RObj l) -> keeps (RObj l) v -> ws w -> (String.length t <= n)%nat -> fvalue n (w ++ t ++ r) = Some (v, r).
Proof.
  intros HV HK W HL. pose proof (value_length _ _ HV). destruct n as [|n]; [lia|].
  inversion HV; subst; clear HV; inv_keeps; cbn [append String.length] in HL; rewrite length_app in HL; cbn in HL; cbn [fvalue append]; rewrite app_assoc_s;
    (rewrite jskip_app; [|exact W|nws]); change (Ascii.eqb "{" dquote) with false; change (Ascii.eqb "{" "{") with true; cbv iota.
  - match goal with X : Forall2 _ [] _ |- _ => inversion X; subst end. rewrite jskip_app; [|assumption|nws]. reflexivity.
  - match goal with X : members_text _ _ |- _ => destruct (members_first _ _ (String "}" r) X) as (t & E) end.
    cbn [append]. rewrite E. change (Ascii.eqb dquote "}") with false. cbv iota. rewrite <- E, fmembers_skip.
    match goal with X : Forall2 _ l _, Y : members_text _ _ |- _ => rewrite (proj1 (proj2 (proj2 full_complete)) _ _ Y _ n r X) by lia end. reflexivity.
Qed.
Lemma decode_object_iff s l : decode_one s = Some (FObj l) <->
  exists w t r x, s = (w ++ t ++ r)%string /\ ws w /\ value_text t x /\ within_limit x /\ keeps x (FObj l).
Proof.
  unfold decode_one, within_limit. split.
  - intros H. destruct (fvalue (S (String.length s)) s) as [[v' r]|] eqn:E; [|discriminate H].
    destruct (N.leb (depth v') max_nesting) eqn:ED; [|discriminate H]. injection H as ->. apply N.leb_le in ED.
    apply full_sound in E. destruct E as (w & t & x & -> & W' & HV & HK). rewrite (keeps_depth _ _ HK) in ED. exists w, t, r, x. auto 6.
  - intros (w & t & r & x & -> & W & HV & HD & HK). pose proof HK as HK'. inversion HK'; subst.
    rewrite (object_no_ends t _ r _ _ w HV HK W); [|rewrite !length_app; lia].
    rewrite (keeps_depth _ _ HK). apply N.leb_le in HD. fold max_nesting in HD. rewrite HD. reflexivity.
Qed.

(** ** The reader of requests *)
Lemma jint_sound s z r : jint s = Some (z, r) -> exists t x, s = (t ++ r)%string /\ number_text t x /\ simple (RNum x) (JSInt z).
Proof.
  intros H. unfold jint in H.
  assert (ES : exists neg body, (match s with String "-" r0 => ("-", r0) | _ => ("", s) end) = ((if neg : bool then "-" else ""), body) /\ s = ((if neg : bool then "-" else "") ++ body)%string).
  { destruct s as [|a s']; [exists false; eauto|]. destruct (Ascii.eqb_spec a "-") as [->|N]; [exists true; eauto|].
    exists false, (String a s'). split; [|reflexivity]. bytes a; try reflexivity. congruence. }
  destruct ES as (neg & body & E & ->). rewrite E in H. clear E.
  destruct (span_digits body) as [i r1] eqn:ED. apply span_cut in ED. destruct ED as [-> HD]. fold (int_part i) in H.
  destruct (int_part i) eqn:EI; [|discriminate H]. apply int_part_iff in EI; [|assumption]. cbn [andb] in H.
  destruct (match r1 with String a _ => negb (Ascii.eqb a "." || Ascii.eqb a "e" || Ascii.eqb a "E") | EmptyString => true end); [|discriminate H].
  destruct (atoi ((if neg then "-" else "") ++ i)) as [z'|] eqn:EA; [|discriminate H]. injection H as <- <-.
  exists ((if neg then "-" else "") ++ i)%string, (Number neg i "" None). split; [rewrite app_assoc_s; reflexivity|]. split.
  - exists "", "". cbn [n_minus n_int n_frac n_exp]. split; [rewrite !app_nil_r_s; reflexivity|]. split; [exact EI|]. split; constructor.
  - assert (HZ : z' = signed neg (decimal i) /\ is_int64 z' = true).
    { unfold atoi in EA. assert (N0 : (i =s? "") = false) by (apply seqb_neq; apply EI).
      destruct neg.
      - cbn [append] in EA. rewrite N0, digits_decimal in EA by assumption. cbv zeta in EA. destruct (is_int64 (- decimal i)) eqn:B; [|discriminate EA].
        injection EA as <-. auto.
      - cbn [append] in EA. destruct i as [|a i]; [discriminate N0|].
        assert (Y : (match String a i with String "-" r0 => (true, r0) | String "+" r0 => (false, r0) | _ => (false, String a i) end) = (false, String a i)).
        { apply digits_cons in HD. destruct HD as [HD _]. clear - HD. bytes a; (reflexivity || discriminate HD). }
        rewrite Y, N0, digits_decimal in EA by assumption. cbv zeta in EA. destruct (is_int64 (decimal (String a i))) eqn:B; [|discriminate EA].
        injection EA as <-. auto. }
    destruct HZ as [HZ HB]. constructor; [exact HZ|]. unfold is_int64 in HB. apply andb_true_iff in HB. destruct HB as [B1 B2]. apply Z.leb_le in B1. apply Z.ltb_lt in B2.
    change two63 with (2 ^ 63)%Z in *. lia.
Qed.
Lemma int64_range z : (- 2 ^ 63 <= z < 2 ^ 63)%Z -> is_int64 z = true.
Proof. intros H. unfold is_int64. change two63 with (2 ^ 63)%Z. apply andb_true_iff. split; [apply Z.leb_le|apply Z.ltb_lt]; lia. Qed.
Lemma jint_complete t x z r : number_text t x -> simple (RNum x) (JSInt z) -> ends r -> jint (t ++ r) = Some (z, r).
Proof.
  intros (tf & te & -> & HI & HF & HE) HS HR. inversion HS as [| |neg i z' EZ B| |]; subst. cbn [n_minus n_int n_frac n_exp] in *.
  inversion HF as [EF|? [DN _] EF]; [subst tf|congruence]. inversion HE; subst. rewrite !app_nil_r_s in *.
  pose proof (proj2 (proj1 HI)) as HD.
  assert (EM : (match (((if neg then "-" else "") ++ i) ++ r)%string with String "-" t => ("-", t) | _ => ("", (((if neg then "-" else "") ++ i) ++ r)%string) end) =
    ((if neg then "-" else ""), (i ++ r)%string)).
  { rewrite !app_assoc_s. destruct neg; [reflexivity|]. cbn [append]. destruct i as [|a i]; [destruct HI as [[X _] _]; congruence|].
    apply digits_cons in HD. destruct HD as [HD _]. cbn [append]. bytes a; (reflexivity || discriminate HD). }
  unfold jint. rewrite EM. rewrite span_join by (assumption || (apply ends_no_digit; assumption)). fold (int_part i). rewrite (proj2 (int_part_iff i HD) HI). cbn [andb].
  assert (ST : (match r with String a _ => negb (Ascii.eqb a "." || Ascii.eqb a "e" || Ascii.eqb a "E") | EmptyString => true end) = true).
  { destruct r as [|a r]; [reflexivity|]. specialize (HR a r eq_refl). simpl in HR. repeat (destruct HR as [<-|HR]; [reflexivity|]). destruct HR. }
  rewrite ST. apply int64_range in B. unfold atoi. assert (N0 : (i =s? "") = false) by (apply seqb_neq; apply HI).
  destruct neg; cbn [append signed] in *.
  - rewrite N0, digits_decimal by assumption. cbv zeta. rewrite B. reflexivity.
  - assert (Y : (match i with String "-" r0 => (true, r0) | String "+" r0 => (false, r0) | _ => (false, i) end) = (false, i)).
    { destruct i as [|a i]; [reflexivity|]. apply digits_cons in HD. destruct HD as [HD _]. clear - HD. bytes a; (reflexivity || discriminate HD). }
    rewrite Y, N0, digits_decimal by assumption. cbv zeta. rewrite B. reflexivity.
Qed.
Lemma parse_sound n :
  (forall s v r, jvalue n s = Some (v, r) -> exists w t x, s = (w ++ t ++ r)%string /\ ws w /\ value_text t x /\ simple x v) /\
  (forall s l r, jmembers n s = Some (l, r) -> exists t lx, s = (t ++ String "}" r)%string /\ members_text t lx /\
     Forall2 (fun p q => fst p = fst q /\ simple (snd p) (snd q)) lx l).
Proof.
  induction n as [|n (IHv & IHm)]; [repeat split; intros; discriminate|]. split.
  - intros s v r H. cbn [jvalue] in H. destruct (jskip_cut s) as (w & ES & W & NW). rewrite ES. clear ES.
    destruct (jskip s) as [|a s1]; [discriminate H|]. clear NW.
    assert (K : (exists t x, String a s1 = (t ++ r)%string /\ value_text t x /\ simple x v) ->
       exists w0 t x, (w ++ String a s1)%string = (w0 ++ t ++ r)%string /\ ws w0 /\ value_text t x /\ simple x v).
    { intros (t & x & -> & A & B). exists w, t, x. auto. }
    apply K. clear K W w.
    destruct (Ascii.eqb_spec a dquote) as [->|N1].
    { destruct (jliteral s1) as [[t r']|] eqn:E; [|discriminate H]. injection H as <- <-. apply jliteral_iff in E. destruct E as (x & -> & HC).
      exists (quoted x), (RStr x t). split; [symmetry; apply quoted_app|]. split; constructor. exact HC. }
    destruct (Ascii.eqb_spec a "{") as [->|N2].
    { destruct (jskip_cut s1) as (w & ES & W & NW). rewrite ES. clear ES. destruct (jskip s1) as [|b s2]; [discriminate H|].
      destruct (Ascii.eqb_spec b "}") as [->|N3].
      - injection H as <- <-. exists ("{" ++ w ++ "}")%string, (RObj []). split; [asc|]. split; constructor; [exact W|constructor].
      - destruct (jmembers n (String b s2)) as [[l r2]|] eqn:E; [|discriminate H]. injection H as <- <-. apply IHm in E.
        destruct E as (t & lx & -> & HM & HK). exists ("{" ++ (w ++ t) ++ "}")%string, (RObj lx). split; [asc|].
        split; constructor; [|exact HK]. apply members_ws; assumption. }
    destruct (Ascii.eqb_spec a "n") as [->|N5].
    { apply jword_iff in H. destruct H as [-> ->]. exists "null", RNull. repeat split; constructor. }
    destruct (Ascii.eqb_spec a "t") as [->|N6].
    { apply jword_iff in H. destruct H as [-> ->]. exists "true", (RBool true). repeat split; constructor. }
    destruct (Ascii.eqb_spec a "f") as [->|N7].
    { apply jword_iff in H. destruct H as [-> ->]. exists "false", (RBool false). repeat split; constructor. }
    destruct (jint (String a s1)) as [[z r']|] eqn:E; [|discriminate H]. injection H as <- <-.
    apply jint_sound in E. destruct E as (t & x & E & HT & HF). exists t, (RNum x). split; [exact E|]. split; [constructor; assumption|exact HF].
  - intros s l r H. cbn [jmembers] in H. destruct (jskip_cut s) as (w1 & ES & W1 & _). rewrite ES. clear ES.
    destruct (jskip s) as [|q s1]; [discriminate H|].
    destruct (Ascii.eqb_spec q dquote) as [->|]; [|discriminate H].
    destruct (jliteral s1) as [[k r1]|] eqn:E1; [|discriminate H]. apply jliteral_iff in E1. destruct E1 as (x & -> & HC).
    destruct (jskip_cut r1) as (w2 & ES & W2 & _). rewrite ES. clear ES.
    destruct (jskip r1) as [|c r2]; [discriminate H|]. destruct (Ascii.eqb_spec c ":") as [->|]; [|discriminate H].
    destruct (jvalue n r2) as [[v r3]|] eqn:E2; [|discriminate H]. apply IHv in E2. destruct E2 as (w3 & t & y & -> & W3 & HV & HK).
    destruct (jskip_cut r3) as (w4 & ES & W4 & _). rewrite ES. clear ES.
    destruct (jskip r3) as [|e r4]; [discriminate H|].
    pose proof (mb_intro w1 x k w2 w3 t y w4 W1 HC W2 W3 HV W4) as HM.
    destruct (Ascii.eqb_spec e "}") as [->|].
    { injection H as <- <-. exists (w1 ++ quoted x ++ w2 ++ ":" ++ w3 ++ t ++ w4)%string, [(k, y)]. split; [asc|].
      split; [apply mb_last; exact HM|]. constructor; [split; auto|constructor]. }
    destruct (Ascii.eqb_spec e ",") as [->|]; [|discriminate H].
    destruct (jmembers n r4) as [[l' r5]|] eqn:E3; [|discriminate H]. injection H as <- <-. apply IHm in E3.
    destruct E3 as (t' & lx & -> & HM' & HK').
    exists ((w1 ++ quoted x ++ w2 ++ ":" ++ w3 ++ t ++ w4) ++ "," ++ t')%string, ((k, y) :: lx). split; [asc|].
    split; [apply mb_more; assumption|]. constructor; [split; auto|assumption].
Qed.
Lemma jmembers_skip n s : jmembers n (jskip s) = jmembers n s.
Proof. destruct n; [reflexivity|]. cbn [jmembers]. rewrite jskip_idem. reflexivity. Qed.
Ltac inv_simple := match goal with H : simple _ _ |- _ => inversion H; subst; clear H end.
Lemma parse_complete :
  (forall t x, value_text t x -> forall v n w r, simple x v -> ws w -> ends r -> (String.length t <= n)%nat ->
     jvalue n (w ++ t ++ r) = Some (v, r)) /\
  (forall t lx, elements_text t lx -> True) /\
  (forall t lx, members_text t lx -> forall l n r, Forall2 (fun p q => fst p = fst q /\ simple (snd p) (snd q)) lx l -> (String.length t <= n)%nat ->
     jmembers n (t ++ String "}" r) = Some (l, r)) /\
  (forall t k x, member_text t k x -> forall v n r e, simple x v -> (String.length t <= n)%nat -> In e [","; "}"]%char ->
     jmembers n (t ++ String e r) = if Ascii.eqb e "}" then Some ([(k, v)], r) else
       match jmembers (pred n) r with Some (l, r5) => Some ((k, v) :: l, r5) | None => None end).
Proof.
  apply text_ind.
  - intros v n w r HK W HR HL. inv_simple. destruct n; [cbn in HL; lia|]. cbn [jvalue]. rewrite jskip_app; [|exact W|nws].
    apply (proj2 (jword_iff "null" JSNull _ _ r)). split; reflexivity.
  - intros v n w r HK W HR HL. inv_simple. destruct n; [cbn in HL; lia|]. cbn [jvalue]. rewrite jskip_app; [|exact W|nws].
    apply (proj2 (jword_iff "true" (JSBool true) _ _ r)). split; reflexivity.
  - intros v n w r HK W HR HL. inv_simple. destruct n; [cbn in HL; lia|]. cbn [jvalue]. rewrite jskip_app; [|exact W|nws].
    apply (proj2 (jword_iff "false" (JSBool false) _ _ r)). split; reflexivity.
  - (* numbers *)
    intros s x HX v n w r HK W HR HL. assert (HV0 : exists z, v = JSInt z) by (inversion HK; eauto). destruct HV0 as [z ->]. pose proof HK as HS. pose proof (vt_num s x HX) as HV. pose proof (value_length _ _ HV).
    destruct n; [lia|]. cbn [jvalue]. rewrite jskip_app; [|exact W|eapply value_not_ws; exact HV].
    destruct (number_first s x HX) as (a & t' & -> & HA). cbn [append].
    assert (NE : forall b, is_digit b = false -> b <> "-"%char -> Ascii.eqb a b = false).
    { intros b B1 B2. apply Ascii.eqb_neq. intros ->. destruct HA; congruence. }
    rewrite !NE by (reflexivity || discriminate). change (String a (t' ++ r)) with (String a t' ++ r)%string.
    rewrite (jint_complete _ x _ r HX HS HR). reflexivity.
  - intros s t HC v n w r HK W HR HL. inv_simple. destruct n; [cbn in HL; lia|]. cbn [jvalue]. rewrite quoted_app. rewrite jskip_app; [|exact W|nws].
    rewrite Ascii.eqb_refl. rewrite (proj2 (jliteral_iff _ t r)) by eauto. reflexivity.
  - intros w0 W0 v n w r HK W HR HL. inversion HK.
  - intros s l HE IH v n w r HK W HR HL. inversion HK.
  - intros w0 W0 v n w r HK W HR HL. inv_simple. match goal with X : Forall2 _ [] _ |- _ => inversion X; subst end.
    destruct n; [cbn in HL; lia|]. cbn [jvalue append]. rewrite app_assoc_s. rewrite jskip_app; [|exact W|nws].
    change (Ascii.eqb "{" dquote) with false. change (Ascii.eqb "{" "{") with true. cbv iota.
    rewrite jskip_app; [|exact W0|nws]. reflexivity.
  - intros s l HE IH v n w r HK W HR HL. inv_simple. destruct n as [|n]; [cbn in HL; lia|]. cbn [jvalue append]. rewrite app_assoc_s. rewrite jskip_app; [|exact W|nws].
    change (Ascii.eqb "{" dquote) with false. change (Ascii.eqb "{" "{") with true. cbv iota.
    cbn [append String.length] in HL. rewrite length_app in HL. cbn in HL.
    destruct (members_first s l (String "}" r) HE) as (t & E). cbn [append]. rewrite E. change (Ascii.eqb dquote "}") with false. cbv iota. rewrite <- E, jmembers_skip.
    match goal with X : Forall2 _ l _ |- _ => rewrite (IH _ n r X) by lia end. reflexivity.
  - intros. exact I.
  - intros. exact I.
  - (* members *)
    intros m k x HM IH l n r HF HL. inversion HF as [|? [k' v] ? l' HK HF']; subst. inversion HF'; subst. cbn [fst snd] in HK. destruct HK as [<- HK].
    rewrite (IH v n r "}"%char HK HL) by (simpl; tauto). reflexivity.
  - intros m k x s' l0 HM IH HS IHs l n r HF HL. inversion HF as [|? [k' v] ? l' HK HF']; subst. cbn [fst snd] in HK. destruct HK as [<- HK].
    rewrite !length_app in HL. cbn in HL.
    replace ((m ++ "," ++ s') ++ String "}" r)%string with (m ++ String "," (s' ++ String "}" r))%string by asc.
    rewrite (IH v n _ ","%char HK) by (lia || (simpl; tauto)). change (Ascii.eqb "," "}") with false. cbv iota.
    rewrite (IHs l' (pred n) r HF') by lia. reflexivity.
  - intros w1 q k w2 w3 s x w4 W1 HC W2 W3 HV IH W4 v n r e HK HL HE.
    rewrite !length_app in HL. unfold quoted in HL. cbn in HL. rewrite !length_app in HL. cbn in HL. destruct n as [|n]; [lia|]. cbn [jmembers pred].
    replace ((w1 ++ quoted q ++ w2 ++ ":" ++ w3 ++ s ++ w4) ++ String e r)%string with
      (w1 ++ String dquote (q ++ String dquote (w2 ++ String ":" (w3 ++ s ++ (w4 ++ String e r)))))%string by asc.
    rewrite jskip_app; [|exact W1|nws]. rewrite Ascii.eqb_refl. rewrite (proj2 (jliteral_iff _ k (w2 ++ String ":" (w3 ++ s ++ (w4 ++ String e r))))) by eauto.
    rewrite jskip_app; [|exact W2|nws]. rewrite Ascii.eqb_refl.
    assert (E2 : In e [","; "]"; "}"]%char) by (simpl in *; tauto).
    rewrite (IH v n w3 (w4 ++ String e r)%string HK W3) by (lia || (apply ends_ws; [exact W4|]; apply ends_in; exact E2)).
    rewrite jskip_app; [|exact W4|apply not_ws_char; simpl in HE; destruct HE as [<-|[<-|[]]]; simpl; intuition discriminate].
    simpl in HE. destruct HE as [<-|[<-|[]]]; reflexivity.
Qed.
Lemma jparse_iff s v : jparse s = Some v <-> exists x, json_text s x /\ simple x v.
Proof.
  unfold jparse, json_text. split.
  - intros H. destruct (jvalue (S (String.length s)) s) as [[v' r]|] eqn:E; [|discriminate H].
    destruct (jskip r =s? "") eqn:E0; [|discriminate H]. injection H as ->. apply seqb_eq in E0.
    destruct (jskip_cut r) as (w & ES & W & _). rewrite E0, app_nil_r_s in ES. subst w.
    apply parse_sound in E. destruct E as (w & t & x & -> & W' & HV & HK). exists x. split; [|exact HK]. exists w, t, r. auto.
  - intros (x & (w1 & t & w2 & -> & W1 & HV & W2) & HK).
    rewrite (proj1 parse_complete t x HV v _ w1 w2 HK W1).
    + rewrite jskip_ws by exact W2. reflexivity.
    + rewrite <- (app_nil_r_s w2). apply ends_ws; [exact W2|apply ends_nil].
    + rewrite !length_app. lia.
Qed.
