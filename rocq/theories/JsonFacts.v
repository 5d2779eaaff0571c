(** * The JSON reader inverts the printer. *)
From Coq Require Import Lia DecimalString DecimalZ DecimalPos DecimalN DecimalFacts Decimal.
From Verif Require Import GoStr Codec Json StrFacts Core JsonParse CodecSpec.

Lemma byte_in_range lo hi a : in_range lo hi a = true <-> byte_in lo hi a.
Proof. unfold in_range, byte_in, nb. rewrite andb_true_iff, !N.leb_le. tauto. Qed.

Lemma utf8_2_spec a b : utf8_2 a b = true <-> byte_in 194 223 a /\ byte_in 128 191 b.
Proof. unfold utf8_2, is_cont. rewrite andb_true_iff, !byte_in_range. tauto. Qed.
Lemma ascii_n a n : (n < 256)%N -> Ascii.eqb a (ascii_of_N n) = true <-> N_of_ascii a = n.
Proof.
  intros H. rewrite Ascii.eqb_eq. split; intros X.
  - rewrite X. apply N_ascii_embedding. exact H.
  - rewrite <- X. symmetry. apply ascii_N_embedding.
Qed.
Lemma utf8_3_spec a b c : utf8_3 a b c = true <->
  ((N_of_ascii a = 224%N /\ byte_in 160 191 b) \/ (byte_in 225 236 a /\ byte_in 128 191 b) \/
    (N_of_ascii a = 237%N /\ byte_in 128 159 b) \/ (byte_in 238 239 a /\ byte_in 128 191 b)) /\ byte_in 128 191 c.
Proof.
  unfold utf8_3, is_cont. rewrite andb_true_iff, !orb_true_iff, !andb_true_iff, !byte_in_range.
  change "224"%char with (ascii_of_N 224). change "237"%char with (ascii_of_N 237).
  rewrite !ascii_n by reflexivity. tauto.
Qed.
Lemma utf8_4_spec a b c d : utf8_4 a b c d = true <->
  ((N_of_ascii a = 240%N /\ byte_in 144 191 b) \/ (byte_in 241 243 a /\ byte_in 128 191 b) \/
    (N_of_ascii a = 244%N /\ byte_in 128 143 b)) /\ byte_in 128 191 c /\ byte_in 128 191 d.
Proof.
  unfold utf8_4, is_cont. rewrite !andb_true_iff, !orb_true_iff, !andb_true_iff, !byte_in_range.
  change "240"%char with (ascii_of_N 240). change "244"%char with (ascii_of_N 244).
  rewrite !ascii_n by reflexivity. tauto.
Qed.

Ltac bytes a := destruct a as [[] [] [] [] [] [] [] []].

(** ** Strings *)
Lemma jchar_ascii a r : (nb a < 128)%N -> jchar (jesc_ascii a ++ r) = Some (Some (String a ""), r).
Proof. intros H. bytes a; try (exfalso; revert H; vm_compute; discriminate); reflexivity. Qed.

(* a byte above 127 is neither a quote, a backslash nor a control byte *)
Lemma high_byte a : (128 <= nb a)%N ->
  Ascii.eqb a dquote = false /\ Ascii.eqb a backslash = false /\ N.ltb (nb a) 32 = false /\ N.ltb (nb a) 128 = false.
Proof.
  intros H. repeat split; try (apply N.ltb_ge; lia).
  - apply Ascii.eqb_neq. intros ->. vm_compute in H. congruence.
  - apply Ascii.eqb_neq. intros ->. vm_compute in H. congruence.
Qed.

Lemma jesc_3_char a b c r : utf8_3 a b c = true -> (128 <= nb a)%N ->
  utf8_2 a b = false -> jchar (jesc_3 a b c ++ r) = Some (Some (String a (String b (String c ""))), r).
Proof.
  intros H3 HA H2. unfold jesc_3.
  destruct (Ascii.eqb a "226" && Ascii.eqb b "128" && Ascii.eqb c "168")%bool eqn:E1.
  { apply andb_true_iff in E1. destruct E1 as [E1 E3]. apply andb_true_iff in E1. destruct E1 as [E1 E2].
    apply Ascii.eqb_eq in E1, E2, E3. subst. reflexivity. }
  destruct (Ascii.eqb a "226" && Ascii.eqb b "128" && Ascii.eqb c "169")%bool eqn:E2.
  { apply andb_true_iff in E2. destruct E2 as [E2 E3]. apply andb_true_iff in E2. destruct E2 as [E2 E4].
    apply Ascii.eqb_eq in E2, E4, E3. subst. reflexivity. }
  destruct (high_byte a HA) as (Q1 & Q2 & Q3 & Q4).
  cbn [append jchar]. rewrite Q1, Q2, Q3, Q4, H2, H3. reflexivity.
Qed.

Lemma jstr_step n t b r : jchar t = Some (Some b, r) -> jstr (S n) t =
  match jstr n r with Some (x, r') => Some (b ++ x, r')%string | None => None end.
Proof. intros H. cbn [jstr]. rewrite H. reflexivity. Qed.

(** What the reader makes of the bytes of a string. *)
Fixpoint to_valid (s : string) : string :=
  match s with
  | EmptyString => ""
  | String a s1 =>
      if N.ltb (nb a) 128 then String a (to_valid s1)
      else match s1 with
           | EmptyString => fffd
           | String b s2 =>
               if utf8_2 a b then String a (String b (to_valid s2))
               else match s2 with
                    | EmptyString => fffd ++ to_valid s1
                    | String c s3 =>
                        if utf8_3 a b c then String a (String b (String c (to_valid s3)))
                        else match s3 with
                             | EmptyString => fffd ++ to_valid s1
                             | String d s4 =>
                                 if utf8_4 a b c d
                                 then String a (String b (String c (String d (to_valid s4))))
                                 else fffd ++ to_valid s1
                             end
                    end
           end
  end.

(* one well-formed sequence, and no more *)
Inductive seq : string -> Prop :=
| sq1 a : byte_in 0 127 a -> seq (String a "")
| sq2 a b : byte_in 194 223 a -> byte_in 128 191 b -> seq (String a (String b ""))
| sq3 a b c : 
    (N_of_ascii a = 224%N /\ byte_in 160 191 b) \/ (byte_in 225 236 a /\ byte_in 128 191 b) \/
    (N_of_ascii a = 237%N /\ byte_in 128 159 b) \/ (byte_in 238 239 a /\ byte_in 128 191 b) ->
    byte_in 128 191 c -> seq (String a (String b (String c "")))
| sq4 a b c d :
    (N_of_ascii a = 240%N /\ byte_in 144 191 b) \/ (byte_in 241 243 a /\ byte_in 128 191 b) \/
    (N_of_ascii a = 244%N /\ byte_in 128 143 b) ->
    byte_in 128 191 c -> byte_in 128 191 d -> seq (String a (String b (String c (String d "")))).

Lemma utf8_seq s : utf8 s -> s = "" \/ exists c r, s = (c ++ r)%string /\ seq c /\ utf8 r.
Proof.
  intros H. inversion H; subst; auto; right.
  - exists (String a ""), s0. repeat split; auto. constructor; auto.
  - exists (String a (String b "")), s0. repeat split; auto. constructor; auto.
  - exists (String a (String b (String c ""))), s0. repeat split; auto. constructor; auto.
  - exists (String a (String b (String c (String d "")))), s0. repeat split; auto. constructor; auto.
Qed.
Lemma seq_utf8 c s : seq c -> utf8 s -> utf8 (c ++ s).
Proof.
  intros H HS. destruct H; cbn [append]; [apply u8_1|apply u8_2|apply u8_3|apply u8_4]; auto.
Qed.
(* a sequence is not the start of another one *)
Lemma seq_prefix c c' r r' : seq c -> seq c' -> (c ++ r = c' ++ r')%string -> c = c' /\ r = r'.
Proof.
  intros H H' E. unfold byte_in in *.
  destruct H, H'; cbn [append] in E; injection E; intros; subst; auto; exfalso; unfold byte_in in *; lia.
Qed.
Lemma seq_not_nil c : seq c -> c <> "".
Proof. intros H. destruct H; discriminate. Qed.
Lemma app_nil_inv (x y : string) : (x ++ y = "")%string -> x = "" /\ y = "".
Proof. destruct x; [auto|discriminate]. Qed.
Lemma seq_minimal c x y : seq c -> c = (x ++ y)%string -> utf8 x -> x = "" \/ y = "".
Proof.
  intros HC E HX. destruct (utf8_seq x HX) as [->|(d & r & -> & HD & _)]; auto. right.
  rewrite app_assoc_s in E. rewrite <- (app_nil_r_s c) in E. apply seq_prefix in E; auto. destruct E as [_ E].
  symmetry in E. apply app_nil_inv in E. tauto.
Qed.

Lemma cases s : s = "" \/
  (exists c r e, s = (c ++ r)%string /\ seq c /\ jescape s = (e ++ jescape r)%string /\
     (forall t, jchar (e ++ t) = Some (Some c, t)) /\ to_valid s = (c ++ to_valid r)%string /\
     (String.length c <= String.length e)%nat) \/
  (exists a r, s = String a r /\ (forall c r', s = (c ++ r')%string -> ~ seq c) /\
     jescape s = (ufffd ++ jescape r)%string /\ to_valid s = (fffd ++ to_valid r)%string).
Proof.
  destruct s as [|a s1]; [auto|right]. cbn [jescape to_valid].
  destruct (N.ltb (nb a) 128) eqn:E1.
  { apply N.ltb_lt in E1. left. exists (String a ""), s1, (jesc_ascii a).
    split; [reflexivity|]. split; [apply sq1; unfold byte_in, nb in *; lia|]. split; [reflexivity|].
    split; [intros; apply jchar_ascii; auto|]. split; [reflexivity|]. bytes a; vm_compute; lia. }
  assert (HA : (128 <= nb a)%N) by (apply N.ltb_ge in E1; auto).
  destruct (high_byte a HA) as (Q1 & Q2 & Q3 & Q4).
  assert (NS : forall c r', String a s1 = (c ++ r')%string -> seq c ->
     (exists b, c = String a (String b "") /\ utf8_2 a b = true) \/
     (exists b c', c = String a (String b (String c' "")) /\ utf8_3 a b c' = true) \/
     (exists b c' d, c = String a (String b (String c' (String d ""))) /\ utf8_4 a b c' d = true)).
  { intros c r' E HS. destruct HS as [x H|x b H1 H2|x b c' H1 H2|x b c' d H1 H2 H3]; injection E as <- E.
    - exfalso. unfold byte_in, nb in *. lia.
    - left. exists b. split; auto. apply utf8_2_spec. auto.
    - right. left. exists b, c'. split; auto. apply utf8_3_spec. auto.
    - right. right. exists b, c', d. split; auto. apply utf8_4_spec. auto. }
  destruct s1 as [|b s2].
  { right. exists a, "". split; [reflexivity|]. split; [|split; reflexivity].
    intros c r' E HS. destruct (NS c r' E HS) as [(b & -> & _)|[(b & c' & -> & _)|(b & c' & d & -> & _)]]; discriminate. }
  destruct (utf8_2 a b) eqn:E2.
  { left. exists (String a (String b "")), s2, (String a (String b "")). split; [reflexivity|].
    split; [apply utf8_2_spec in E2; apply sq2; tauto|]. split; [reflexivity|]. split; [|split; [reflexivity|cbn; lia]].
    intros t. cbn [append jchar]. rewrite Q1, Q2, Q3, Q4, E2. reflexivity. }
  destruct s2 as [|c s3].
  { right. exists a, (String b ""). split; [reflexivity|]. split; [|split; reflexivity].
    intros c r' E HS. destruct (NS c r' E HS) as [(x & -> & X)|[(x & c' & -> & _)|(x & c' & d & -> & _)]]; [|discriminate..].
    injection E as <- E. congruence. }
  destruct (utf8_3 a b c) eqn:E3.
  { left. exists (String a (String b (String c ""))), s3, (jesc_3 a b c). split; [reflexivity|].
    split; [apply utf8_3_spec in E3; apply sq3; tauto|]. split; [reflexivity|]. split; [|split; [reflexivity|]].
    - intros t. apply jesc_3_char; auto.
    - unfold jesc_3. destruct (_ && _)%bool; [vm_compute; lia|]. destruct (_ && _)%bool; vm_compute; lia. }
  destruct s3 as [|d s4].
  { right. exists a, (String b (String c "")). split; [reflexivity|]. split; [|split; reflexivity].
    intros w r' E HS. destruct (NS w r' E HS) as [(x & -> & X)|[(x & c' & -> & X)|(x & c' & d & -> & _)]]; [..|discriminate].
    - injection E as <- E. congruence.
    - injection E as <- <- E. congruence. }
  destruct (utf8_4 a b c d) eqn:E4.
  { left. exists (String a (String b (String c (String d "")))), s4, (String a (String b (String c (String d "")))).
    split; [reflexivity|]. split; [apply utf8_4_spec in E4; apply sq4; tauto|]. split; [reflexivity|].
    split; [|split; [reflexivity|cbn; lia]]. intros t. cbn [append jchar]. rewrite Q1, Q2, Q3, Q4, E2, E3, E4. reflexivity. }
  right. exists a, (String b (String c (String d s4))). split; [reflexivity|]. split; [|split; reflexivity].
  intros w r' E HS. destruct (NS w r' E HS) as [(x & -> & X)|[(x & c' & -> & X)|(x & c' & d' & -> & X)]].
  - injection E as <- E. congruence.
  - injection E as <- <- E. congruence.
  - injection E as <- <- <- E. congruence.
Qed.

Lemma length_app s t : String.length (s ++ t) = (String.length s + String.length t)%nat.
Proof. induction s as [|a s IH]; cbn; [reflexivity|]. rewrite IH. reflexivity. Qed.

Lemma str_strong (P : string -> Prop) :
  (forall s, (forall t, (String.length t < String.length s)%nat -> P t) -> P s) -> forall s, P s.
Proof.
  intros H. assert (X : forall n s, (String.length s < n)%nat -> P s).
  { induction n as [|n IH]; intros s HL; [lia|]. apply H. intros t HT. apply IH. lia. }
  intros s. apply (X (S (String.length s))). lia.
Qed.
Lemma seq_length c : seq c -> (1 <= String.length c)%nat.
Proof. intros H. destruct H; cbn; lia. Qed.

Lemma jstr_escape s : forall n r, (String.length s < n)%nat ->
  jstr n (jescape s ++ String dquote r) = Some (to_valid s, r).
Proof.
  induction s as [s IH] using str_strong. intros n r HN. destruct n as [|n]; [lia|].
  destruct (cases s) as [->|[(c & t & e & -> & HC & HE & HJ & HV & _)|(a & t & -> & _ & HE & HV)]].
  - reflexivity.
  - rewrite HE, HV, app_assoc_s, (jstr_step _ _ _ _ (HJ _)). pose proof (seq_length c HC). rewrite length_app in *.
    rewrite IH by lia. reflexivity.
  - rewrite HE, HV, app_assoc_s. rewrite (jstr_step _ _ fffd (jescape t ++ String dquote r)) by reflexivity.
    cbn [String.length] in *. rewrite IH by lia. reflexivity.
Qed.

Lemma jescape_length s : (String.length s <= String.length (jescape s))%nat.
Proof.
  induction s as [s IH] using str_strong.
  destruct (cases s) as [->|[(c & t & e & -> & HC & HE & HJ & HV & HL)|(a & t & -> & _ & HE & HV)]]; [cbn; lia|..];
    rewrite HE, length_app.
  - pose proof (seq_length c HC). rewrite length_app in *. specialize (IH t ltac:(lia)). lia.
  - cbn [String.length] in *. specialize (IH t ltac:(lia)). cbn. lia.
Qed.

Lemma jliteral_escape s r : jliteral (jescape s ++ String dquote r) = Some (to_valid s, r).
Proof.
  unfold jliteral. apply jstr_escape. rewrite length_app. cbn.
  pose proof (jescape_length s). lia.
Qed.

Lemma utf8_app_seq c r : seq c -> utf8 (c ++ r) -> utf8 r.
Proof.
  intros HC H. destruct (utf8_seq _ H) as [E|(d & t & E & HD & HT)].
  - apply app_nil_inv in E. destruct E as [-> ->]. constructor.
  - apply seq_prefix in E; auto. destruct E as [_ ->]. exact HT.
Qed.

Lemma to_valid_utf8 s : utf8 (to_valid s).
Proof.
  induction s as [s IH] using str_strong.
  destruct (cases s) as [->|[(c & t & e & -> & HC & HE & HJ & HV & HL)|(a & t & -> & _ & HE & HV)]];
    [constructor|..]; rewrite HV.
  - apply seq_utf8; auto. apply IH. pose proof (seq_length c HC). rewrite length_app. lia.
  - change fffd with (String "239" (String "191" (String "189" ""))). cbn [append]. apply u8_3.
    + right. right. right. unfold byte_in. vm_compute. repeat split; discriminate.
    + unfold byte_in. vm_compute. split; discriminate.
    + apply IH. cbn. lia.
Qed.
Lemma to_valid_fixed s : to_valid s = s <-> utf8 s.
Proof.
  split; [intros <-; apply to_valid_utf8|].
  induction s as [s IH] using str_strong. intros HU.
  destruct (cases s) as [->|[(c & t & e & -> & HC & HE & HJ & HV & HL)|(a & t & -> & HB & HE & HV)]]; auto.
  - rewrite HV, IH; auto; [pose proof (seq_length c HC); rewrite length_app; lia|]. eapply utf8_app_seq; eauto.
  - exfalso. destruct (utf8_seq _ HU) as [E|(c & r & E & HC & _)]; [discriminate|]. exact (HB _ _ E HC).
Qed.
Lemma to_valid_repaired s : repaired s (to_valid s).
Proof.
  induction s as [s IH] using str_strong.
  destruct (cases s) as [->|[(c & t & e & -> & HC & HE & HJ & HV & HL)|(a & t & -> & HB & HE & HV)]];
    [constructor|..]; rewrite HV.
  - apply rp_seq.
    + apply seq_not_nil; auto.
    + rewrite <- (app_nil_r_s c). apply seq_utf8; auto. constructor.
    + intros x y. apply seq_minimal; auto.
    + apply IH. pose proof (seq_length c HC). rewrite length_app. lia.
  - apply rp_bad; [|apply IH; cbn; lia]. intros c s' E HU.
    destruct (utf8_seq c HU) as [->|(d & r & -> & HD & _)]; auto. exfalso. rewrite app_assoc_s in E. exact (HB _ _ E HD).
Qed.
Lemma minimal_seq c : c <> "" -> utf8 c -> (forall x y, c = (x ++ y)%string -> utf8 x -> x = "" \/ y = "") -> seq c.
Proof.
  intros HN HU HM. destruct (utf8_seq c HU) as [->|(d & r & -> & HD & _)]; [contradiction|].
  destruct (HM d r eq_refl) as [->| ->].
  - rewrite <- (app_nil_r_s d). apply seq_utf8; auto. constructor.
  - inversion HD.
  - rewrite app_nil_r_s. exact HD.
Qed.
Lemma repaired_unique s t : repaired s t -> t = to_valid s.
Proof.
  induction 1 as [|c s t HN HU HM HR IH|a s t HB HR IH]; [reflexivity|..].
  - pose proof (minimal_seq c HN HU HM) as HC.
    destruct (cases (c ++ s)) as [E|[(d & r & e & E & HD & HE & HJ & HV & HL)|(a & r & E & HB & HE & HV)]].
    + apply app_nil_inv in E. destruct E. contradiction.
    + apply seq_prefix in E; auto. destruct E as [-> ->]. rewrite HV, IH. reflexivity.
    + destruct (HB c s eq_refl HC).
  - destruct (cases (String a s)) as [E|[(d & r & e & E & HD & HE & HJ & HV & HL)|(b & r & E & _ & HE & HV)]]; [discriminate|..].
    + destruct (seq_not_nil d HD). apply (HB d r E). rewrite <- (app_nil_r_s d). apply seq_utf8; auto. constructor.
    + injection E as <- <-. rewrite HV, IH. reflexivity.
Qed.

(** ** Integers *)
Lemma digits_acc u : forall p, digits_val (Zpos p) (NilEmpty.string_of_uint u) = Some (Zpos (Pos.of_uint_acc u p)).
Proof.
  induction u; intros p; [reflexivity|..]; cbn [NilEmpty.string_of_uint digits_val]; cbn [Pos.of_uint_acc];
    rewrite <- IHu;
    match goal with |- (if ?c then _ else _) = _ => change c with true end; cbv iota; f_equal;
    match goal with |- context [Z.of_N ?n] => let v := eval vm_compute in (Z.of_N n) in change (Z.of_N n) with v end; lia.
Qed.
Lemma digits_uint u : digits_val 0 (NilEmpty.string_of_uint u) = Some (Z.of_N (Pos.of_uint u)).
Proof.
  induction u; [reflexivity|..]; cbn [NilEmpty.string_of_uint digits_val is_digit Pos.of_uint].
  - exact IHu.
  - exact (digits_acc u 1).
  - exact (digits_acc u 2).
  - exact (digits_acc u 3).
  - exact (digits_acc u 4).
  - exact (digits_acc u 5).
  - exact (digits_acc u 6).
  - exact (digits_acc u 7).
  - exact (digits_acc u 8).
  - exact (digits_acc u 9).
Qed.

Definition plain_digits (s : string) : Prop :=
  Forall (fun a => is_digit a = true) (list_ascii_of_string s) /\
  match s with
  | EmptyString => False
  | String a EmptyString => True
  | String a _ => a <> "0"%char
  end.

Lemma uint_digits u : Forall (fun a => is_digit a = true) (list_ascii_of_string (NilEmpty.string_of_uint u)).
Proof. induction u; cbn; constructor; auto. Qed.

Lemma pos_digits p : plain_digits (NilEmpty.string_of_uint (Pos.to_uint p)).
Proof.
  split; [apply uint_digits|].
  pose proof (DecimalPos.Unsigned.to_uint_nonnil p) as HN.
  pose proof (DecimalN.Unsigned.to_of (Pos.to_uint p)) as HU.
  change (N.of_uint (Pos.to_uint p)) with (Pos.of_uint (Pos.to_uint p)) in HU.
  rewrite DecimalPos.Unsigned.of_to in HU. cbn [N.to_uint] in HU.
  destruct (Pos.to_uint p) as [|u|u|u|u|u|u|u|u|u|u] eqn:E; [congruence| |cbn; destruct (NilEmpty.string_of_uint u); (exact I || discriminate)..].
  exfalso. unfold unorm in HU. cbn [nzhead] in HU.
  destruct (nzhead u) eqn:EN.
  - apply (DecimalPos.Unsigned.to_uint_nonzero p). rewrite E. exact HU.
  - exact (nzhead_nonzero _ _ EN).
  - discriminate.
  - discriminate.
  - discriminate.
  - discriminate.
  - discriminate.
  - discriminate.
  - discriminate.
  - discriminate.
  - discriminate.
Qed.

Lemma itoa_form z : exists d, plain_digits d /\
  ((0 <= z)%Z /\ itoa z = d /\ digits_val 0 d = Some z \/ (z < 0)%Z /\ itoa z = String "-" d /\ digits_val 0 d = Some (- z)%Z).
Proof.
  destruct z as [|p|p].
  - exists "0". split; [repeat split; repeat constructor|]. left. repeat split; lia.
  - exists (NilEmpty.string_of_uint (Pos.to_uint p)). split; [apply pos_digits|]. left. split; [lia|].
    split; [reflexivity|]. rewrite digits_uint, DecimalPos.Unsigned.of_to. reflexivity.
  - exists (NilEmpty.string_of_uint (Pos.to_uint p)). split; [apply pos_digits|]. right. split; [lia|].
    split; [reflexivity|]. rewrite digits_uint, DecimalPos.Unsigned.of_to. reflexivity.
Qed.

Lemma plain_first d : plain_digits d -> exists a r, d = String a r /\ is_digit a = true.
Proof. intros [H1 H2]. destruct d as [|a r]; [destruct H2|]. inversion H1; subst. eauto. Qed.
Lemma digit_not_sign a : is_digit a = true -> a <> "-"%char /\ a <> "+"%char.
Proof. intros H. split; intros ->; discriminate. Qed.

Lemma atoi_plain d : plain_digits d -> atoi d = match digits_val 0 d with
  | Some v => if is_int64 v then Some v else None | None => None end.
Proof.
  intros H. destruct (plain_first d H) as (a & r & -> & HD).
  assert (E : (match String a r with String "-" q => (true, q) | String "+" q => (false, q) | _ => (false, String a r) end)
            = (false, String a r)) by (bytes a; (reflexivity || discriminate HD)).
  unfold atoi. rewrite E. reflexivity.
Qed.
Lemma atoi_minus d : plain_digits d -> atoi (String "-" d) = match digits_val 0 d with
  | Some v => if is_int64 (- v) then Some (- v)%Z else None | None => None end.
Proof.
  intros H. destruct (plain_first d H) as (a & r & -> & HD). reflexivity.
Qed.
Lemma atoi_itoa z : is_int64 z = true -> atoi (itoa z) = Some z.
Proof.
  intros H. destruct (itoa_form z) as (d & HP & [(_ & -> & HD)|(_ & -> & HD)]).
  - rewrite atoi_plain, HD, H by auto. reflexivity.
  - rewrite atoi_minus, HD, Z.opp_involutive, H by auto. reflexivity.
Qed.

(* what may follow an integer *)
Definition stops (r : string) : Prop :=
  match r with
  | EmptyString => True
  | String a _ => a = ","%char \/ a = "}"%char
  end.
Lemma span_plain d r : Forall (fun a => is_digit a = true) (list_ascii_of_string d) -> stops r -> span_digits (d ++ r) = (d, r).
Proof.
  induction d as [|a d IH]; intros H HS.
  - destruct r as [|b r]; [reflexivity|]. destruct HS as [->| ->]; reflexivity.
  - inversion H; subst. cbn [append span_digits]. rewrite H2, IH by auto. reflexivity.
Qed.
Lemma jint_itoa z r : is_int64 z = true -> stops r -> jint (itoa z ++ r) = Some (z, r).
Proof.
  intros H HS. pose proof (atoi_itoa z H) as HA.
  assert (ST : match r with String a _ => negb (Ascii.eqb a "." || Ascii.eqb a "e" || Ascii.eqb a "E") | EmptyString => true end = true).
  { destruct r as [|b r]; [reflexivity|]. destruct HS as [->| ->]; reflexivity. }
  assert (OK : forall d, plain_digits d -> match d with EmptyString => false | String a EmptyString => true
     | String a _ => negb (Ascii.eqb a "0") end = true).
  { intros d [_ HP]. destruct d as [|a [|b d]]; auto. apply negb_true_iff, Ascii.eqb_neq. exact HP. }
  destruct (itoa_form z) as (d & HP & [(_ & E & _)|(_ & E & _)]); rewrite E in *.
  - destruct (plain_first d HP) as (a & q & Ed & HD).
    assert (X : (match (d ++ r)%string with String "-" t => ("-", t) | _ => ("", (d ++ r)%string) end) = ("", (d ++ r)%string)).
    { rewrite Ed. cbn [append]. bytes a; (reflexivity || discriminate HD). }
    unfold jint. rewrite X, span_plain by (auto; apply HP). rewrite (OK d HP), ST. cbn [andb append]. rewrite HA. reflexivity.
  - unfold jint. cbn [append]. rewrite span_plain by (auto; apply HP). rewrite (OK d HP), ST. cbn [andb append]. rewrite HA. reflexivity.
Qed.

(** ** Values *)
Definition json_ind2 (P : json -> Prop) (Hnull : P JSNull) (Hbool : forall b, P (JSBool b))
  (Hint : forall z, P (JSInt z)) (Hstr : forall s, P (JSString s))
  (Hobj : forall l, Forall (fun p => P (snd p)) l -> P (JSObj l)) : forall v, P v :=
  fix rec (v : json) : P v :=
    match v with
    | JSNull => Hnull
    | JSBool b => Hbool b
    | JSInt z => Hint z
    | JSString s => Hstr s
    | JSObj l => Hobj l ((fix go (l : list (string * json)) : Forall (fun p => P (snd p)) l :=
        match l with
        | [] => Forall_nil _
        | p :: r => @Forall_cons _ (fun p => P (snd p)) p r (rec (snd p)) (go r)
        end) l)
    end.

(** Values that can be written: integers have 64 bits. *)
Inductive writable : json -> Prop :=
| w_null : writable JSNull
| w_bool b : writable (JSBool b)
| w_int z : is_int64 z = true -> writable (JSInt z)
| w_str s : writable (JSString s)
| w_obj l : Forall (fun p => writable (snd p)) l -> writable (JSObj l).
Fixpoint repair (v : json) : json :=
  match v with
  | JSString s => JSString (to_valid s)
  | JSObj l => JSObj (map (fun p => (to_valid (fst p), repair (snd p))) l)
  | v => v
  end.
Definition repair_m (p : string * json) : string * json := (to_valid (fst p), repair (snd p)).

Definition members_size (size : json -> nat) (l : list (string * json)) : nat :=
  fold_right (fun p n => (1 + size (snd p) + n)%nat) 0%nat l.
Fixpoint jsize (v : json) : nat :=
  match v with
  | JSObj l => S ((fix go (l : list (string * json)) : nat :=
                     match l with [] => 0%nat | p :: r => (1 + jsize (snd p) + go r)%nat end) l)
  | _ => 1%nat
  end.
Definition msize (l : list (string * json)) : nat :=
  (fix go (l : list (string * json)) : nat :=
     match l with [] => 0%nat | p :: r => (1 + jsize (snd p) + go r)%nat end) l.
Lemma jsize_obj l : jsize (JSObj l) = S (msize l).
Proof. reflexivity. Qed.
Lemma msize_cons p l : msize (p :: l) = (1 + jsize (snd p) + msize l)%nat.
Proof. reflexivity. Qed.

Definition jmember (p : string * json) : string := jstring (fst p) ++ ":" ++ jprint (snd p).
Definition jrest (l : list (string * json)) : string := sep_cons "," jmember l.
Lemma jprint_obj p l : jprint (JSObj (p :: l)) = "{" ++ jmember p ++ jrest l ++ "}".
Proof. destruct p as [k v]. unfold jmember. cbn [jprint fst snd]. rewrite !app_assoc_s. reflexivity. Qed.

(* The first byte of a printed value is not white space. *)
Lemma digits_skip d r : plain_digits d -> jskip (d ++ r) = (d ++ r)%string /\
  exists a t, (d ++ r)%string = String a t /\ Ascii.eqb a dquote = false /\ Ascii.eqb a "{" = false /\
    Ascii.eqb a "n" = false /\ Ascii.eqb a "t" = false /\ Ascii.eqb a "f" = false.
Proof.
  intros H. destruct (plain_first d H) as (a & q & -> & HD). cbn [append].
  split; [bytes a; (reflexivity || discriminate HD)|]. exists a, (q ++ r)%string. split; [reflexivity|].
  bytes a; try discriminate HD; repeat split.
Qed.

Lemma prefix_app w s : String.prefix w (w ++ s) = true.
Proof.
  induction w as [|a w IH]; [destruct s; reflexivity|]. cbn [append String.prefix].
  destruct (ascii_dec a a); [exact IH|contradiction].
Qed.
Lemma substring_app w s : substring (String.length w) (String.length (w ++ s) - String.length w) (w ++ s) = s.
Proof.
  rewrite length_app. replace (String.length w + String.length s - String.length w)%nat with (String.length s) by lia.
  induction w as [|a w IH]; [|exact IH]. cbn [String.length append].
  induction s as [|b s IH]; [reflexivity|]. cbn [substring String.length]. rewrite IH. reflexivity.
Qed.
Lemma jword_app w v s : jword w v (w ++ s) = Some (v, s).
Proof. unfold jword. rewrite prefix_app, substring_app. reflexivity. Qed.

Lemma jvalue_print v : writable v -> forall n r, (jsize v <= n)%nat -> stops r ->
  jvalue n (jprint v ++ r) = Some (repair v, r).
Proof.
  induction v as [| b | z | s | l IH] using json_ind2; intros HW n r HN HS;
    (destruct n as [|n]; [simpl in HN; lia|]).
  - exact (jword_app "null" JSNull r).
  - destruct b; [exact (jword_app "true" (JSBool true) r)|exact (jword_app "false" (JSBool false) r)].
  - inversion HW; subst. cbn [jprint]. pose proof (jint_itoa z r H0 HS) as HJ.
    cbn [jvalue]. destruct (itoa_form z) as (d & HP & [(_ & E & _)|(_ & E & _)]); rewrite E in *.
    + destruct (digits_skip d r HP) as (-> & a & t & EQ & Q1 & Q2 & Q3 & Q4 & Q5). rewrite EQ in *.
      rewrite Q1, Q2, Q3, Q4, Q5, HJ. reflexivity.
    + cbn [append] in *.
      change (match jint (String "-" (d ++ r)) with Some (z0, r') => Some (JSInt z0, r') | None => None end
              = Some (JSInt z, r)).
      rewrite HJ. reflexivity.
  - inversion HW; subst. cbn [jprint]. unfold jstring.
    change ((String dquote (jescape s ++ String dquote "") ++ r)%string)
      with (String dquote ((jescape s ++ String dquote "") ++ r)%string).
    rewrite app_assoc_s. cbn [append]. cbn [jvalue].
    change (jskip (String dquote (jescape s ++ String dquote r))) with (String dquote (jescape s ++ String dquote r)).
    cbv iota. change (Ascii.eqb dquote dquote) with true. cbv iota. rewrite jliteral_escape. reflexivity.
  - inversion HW as [| | | |l' HF]; subst. rewrite jsize_obj in HN.
    destruct l as [|p l]; [reflexivity|].
    rewrite jprint_obj. 
    assert (HM : forall l p n, Forall (fun p => writable (snd p) -> forall n r, (jsize (snd p) <= n)%nat -> stops r ->
          jvalue n (jprint (snd p) ++ r) = Some (repair (snd p), r)) (p :: l) ->
        Forall (fun p => writable (snd p)) (p :: l) ->
        (msize (p :: l) <= n)%nat -> jmembers n (jmember p ++ jrest l ++ "}" ++ r) = Some (map repair_m (p :: l), r)).
    { clear. induction l as [|p' l IHl]; intros p n HI HF HN.
      - rewrite msize_cons in HN. destruct n as [|n]; [lia|]. inversion HI; subst. inversion HF; subst.
        destruct p as [k v]. cbn [fst snd] in *. unfold jmember, jstring, jrest. cbn [sep_cons append].
        change ((String dquote (jescape k ++ String dquote "") ++ ":" ++ jprint v) ++ String "}" r)%string
          with (String dquote (((jescape k ++ String dquote "") ++ ":" ++ jprint v) ++ String "}" r))%string.
        rewrite !app_assoc_s. cbn [append fst snd]. cbn [jmembers].
        change (jskip (String dquote (jescape k ++ String dquote (String ":" (jprint v ++ String "}" r)))))
          with (String dquote (jescape k ++ String dquote (String ":" (jprint v ++ String "}" r)))).
        cbv iota. change (Ascii.eqb dquote dquote) with true. cbv iota. rewrite jliteral_escape.
        change (jskip (String ":" (jprint v ++ String "}" r))) with (String ":" (jprint v ++ String "}" r)).
        cbv iota. change (Ascii.eqb ":" ":") with true. cbv iota.
        rewrite H1; [|auto|lia|right; reflexivity].
        reflexivity.
      - rewrite msize_cons in HN. destruct n as [|n]; [lia|]. inversion HI; subst. inversion HF; subst.
        destruct p as [k v]. cbn [fst snd] in *. unfold jmember at 1, jstring, jrest. cbn [sep_cons].
        fold (jrest l). cbn [append].
        change ((String dquote (jescape k ++ String dquote "") ++ ":" ++ jprint v) ++
                 (String "," (jmember p' ++ jrest l)) ++ String "}" r)%string
          with (String dquote (((jescape k ++ String dquote "") ++ ":" ++ jprint v) ++ String "," ((jmember p' ++ jrest l) ++ String "}" r)))%string.
        rewrite !app_assoc_s. cbn [append fst snd]. cbn [jmembers].
        set (R := (jmember p' ++ jrest l ++ String "}" r)%string).
        change (jskip (String dquote (jescape k ++ String dquote (String ":" (jprint v ++ String "," R)))))
          with (String dquote (jescape k ++ String dquote (String ":" (jprint v ++ String "," R)))).
        cbv iota. change (Ascii.eqb dquote dquote) with true. cbv iota. rewrite jliteral_escape.
        change (jskip (String ":" (jprint v ++ String "," R))) with (String ":" (jprint v ++ String "," R)).
        cbv iota. change (Ascii.eqb ":" ":") with true. cbv iota.
        rewrite H1; [|auto|lia|left; reflexivity].
        change (jskip (String "," R)) with (String "," R). cbv iota. change (Ascii.eqb "," "}") with false.
        change (Ascii.eqb "," ",") with true. cbv iota. 
        assert (HR : jmembers n R = Some (map repair_m (p' :: l), r)).
        { apply (IHl p' n); auto. lia. }
        rewrite HR. reflexivity. }
    assert (E : (("{" ++ jmember p ++ jrest l ++ "}") ++ r)%string =
                String "{" (jmember p ++ jrest l ++ "}" ++ r)) by (cbn [append]; rewrite !app_assoc_s; reflexivity).
    rewrite E. specialize (HM l p n IH HF ltac:(lia)).
    assert (X : exists q, (jmember p ++ jrest l ++ "}" ++ r)%string = String dquote q).
    { destruct p as [k v]. unfold jmember, jstring. cbn [append]. eauto. }
    destruct X as [q X]. rewrite X in *. cbn [jvalue].
    change (jskip (String "{" (String dquote q))) with (String "{" (String dquote q)). cbv iota.
    change (Ascii.eqb "{" dquote) with false. change (Ascii.eqb "{" "{") with true. cbv iota.
    change (jskip (String dquote q)) with (String dquote q). cbv iota. change (Ascii.eqb dquote "}") with false. cbv iota.
    rewrite HM. reflexivity.
Qed.

Lemma itoa_length z : (1 <= String.length (itoa z))%nat.
Proof.
  destruct (itoa_form z) as (d & HP & [(_ & -> & _)|(_ & -> & _)]).
  - destruct (plain_first d HP) as (a & r & -> & _). cbn. lia.
  - cbn. lia.
Qed.
Lemma jsize_length v : (jsize v <= String.length (jprint v))%nat.
Proof.
  induction v as [| b | z | s | l IH] using json_ind2; try (cbn; lia).
  - destruct b; cbn; lia.
  - exact (itoa_length z).
  - destruct l as [|p l]; [cbn; lia|]. rewrite jsize_obj, jprint_obj.
    assert (HM : (msize (p :: l) <= String.length (jmember p ++ jrest l))%nat).
    { revert p IH. induction l as [|p' l IHl]; intros p IH; inversion IH; subst; rewrite msize_cons, !length_app.
      - unfold jmember. rewrite !length_app. unfold msize. cbn. lia.
      - specialize (IHl p' H2). unfold jmember at 1. rewrite !length_app in *.
        change (String.length (jrest (p' :: l))) with (String.length ("," ++ jmember p' ++ jrest l)).
        rewrite !length_app. cbn [String.length]. lia. }
    rewrite !length_app in *. cbn [String.length]. lia.
Qed.

Lemma jparse_print v : writable v -> jparse (jprint v) = Some (repair v).
Proof.
  intros H. unfold jparse. pose proof (jvalue_print v H (S (String.length (jprint v))) "") as HJ.
  rewrite app_nil_r_s in HJ. rewrite HJ; [reflexivity| |exact I].
  pose proof (jsize_length v). lia.
Qed.
