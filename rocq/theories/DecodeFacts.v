(** * Decoding a stored request does what DecodeSpec.v says. *)
From Coq Require Import Lia.
From Verif Require Import GoStr Codec Json StrFacts Utils Core JsonParse JsonFull JsonTree JsonSpec JsonRead TreeRead DecodeSpec.

(** ** Names *)
Lemma lower_byte_of a : lower_byte a = ascii_of_N (let n := N_of_ascii a in if (N.leb 65 n && N.leb n 90)%bool then n + 32 else n)%N.
Proof. unfold lower_byte. cbv zeta. destruct (_ && _)%bool; [reflexivity|]. symmetry. apply ascii_N_embedding. Qed.
Lemma lower_same a b : lower_byte a = lower_byte b <-> same_letter a b.
Proof.
  rewrite !lower_byte_of. unfold same_letter. cbv zeta. pose proof (N_ascii_bounded a) as BA. pose proof (N_ascii_bounded b) as BB.
  assert (E : a = b <-> N_of_ascii a = N_of_ascii b).
  { split; [intros ->; reflexivity|]. intros H. rewrite <- (ascii_N_embedding a), <- (ascii_N_embedding b), H. reflexivity. }
  assert (INJ : forall x y, (x < 256)%N -> (y < 256)%N -> (ascii_of_N x = ascii_of_N y <-> x = y)).
  { intros x y Hx Hy. split; [|intros ->; reflexivity]. intros H. apply (f_equal N_of_ascii) in H. rewrite !N_ascii_embedding in H by assumption. exact H. }
  rewrite E. clear E. set (m := N_of_ascii a) in *. set (n := N_of_ascii b) in *.
  destruct (N.leb_spec 65 m), (N.leb_spec m 90), (N.leb_spec 65 n), (N.leb_spec n 90); cbn [andb]; rewrite INJ by lia; lia.
Qed.
Lemma lower_letter a c : (97 <= N_of_ascii c <= 122)%N -> (lower_byte a = c <-> In a [c; ascii_of_N (N_of_ascii c - 32)]).
Proof.
  intros HC. assert (L : lower_byte c = c).
  { unfold lower_byte. destruct (N.leb_spec (N_of_ascii c) 90); [lia|]. rewrite andb_false_r. reflexivity. }
  rewrite <- L at 1. rewrite lower_same. unfold same_letter. cbn [In].
  pose proof (N_ascii_bounded c). split.
  - intros [->|[[H1 H2]|[H1 H2]]]; [auto| |lia]. right. left. rewrite H2. replace (N_of_ascii a + 32 - 32)%N with (N_of_ascii a) by lia. apply ascii_N_embedding.
  - intros [->|[<-|[]]]; [auto|]. right. left. rewrite N_ascii_embedding by lia. lia.
Qed.
Lemma named_iff k : forall key, fold_eq k key = true <-> named k key.
Proof.
  assert (S : forall a, Ascii.eqb (lower_byte a) "s" = true <-> In a ["s"; "S"]%char) by (intros a; rewrite Ascii.eqb_eq; apply (lower_letter a "s"); vm_compute; split; discriminate).
  assert (K : forall a, Ascii.eqb (lower_byte a) "k" = true <-> In a ["k"; "K"]%char) by (intros a; rewrite Ascii.eqb_eq; apply (lower_letter a "k"); vm_compute; split; discriminate).
  induction k as [|a k IH]; intros key.
  - destruct key; cbn [fold_eq]; split; intros H; try discriminate H; try constructor; inversion H.
  - destruct key as [|b key]; [cbn [fold_eq]; split; intros H; [discriminate H|inversion H]|]. cbn [fold_eq].
    destruct (Ascii.eqb_spec (lower_byte a) (lower_byte b)) as [E|E].
    + rewrite IH. pose proof (proj1 (lower_same a b) E) as E'. split; [intros H; apply nm_char; assumption|].
      intros H. inversion H as [|a' b' k' key' _ H'|a' k' key' HA H'|a' k' key' HA H']; subst; [exact H'| |]; exfalso.
      * destruct HA as [<-|[<-|[]]]; vm_compute in E; discriminate E.
      * destruct HA as [<-|[<-|[]]]; vm_compute in E; discriminate E.
    + assert (N : ~ same_letter a b) by (intros X; apply lower_same in X; contradiction).
      destruct key as [|c key].
      { split; [discriminate|]. intros H. inversion H; subst; contradiction. }
      destruct (Ascii.eqb (lower_byte a) "s" && Ascii.eqb b "197" && Ascii.eqb c "191")%bool eqn:E1.
      { apply andb_true_iff in E1. destruct E1 as [E1 E3]. apply andb_true_iff in E1. destruct E1 as [E1 E2].
        apply Ascii.eqb_eq in E2, E3. subst b c. rewrite IH. apply S in E1. split; [intros H; apply nm_long_s; assumption|].
        intros H. inversion H; subst; [contradiction|assumption]. }
      assert (N1 : ~ (In a ["s"; "S"]%char /\ b = "197"%char /\ c = "191"%char)).
      { intros (H1 & -> & ->). apply S in H1. rewrite H1 in E1. discriminate E1. }
      destruct key as [|d key].
      { split; [discriminate|]. intros H. inversion H; subst; [contradiction|]. exfalso. auto. }
      destruct (Ascii.eqb (lower_byte a) "k" && Ascii.eqb b "226" && Ascii.eqb c "132" && Ascii.eqb d "170")%bool eqn:E2.
      * apply andb_true_iff in E2. destruct E2 as [E2 E5]. apply andb_true_iff in E2. destruct E2 as [E2 E4]. apply andb_true_iff in E2. destruct E2 as [E2 E3].
        apply Ascii.eqb_eq in E3, E4, E5. subst b c d. rewrite IH. apply K in E2. split; [intros H; apply nm_kelvin; assumption|].
        intros H. inversion H; subst; [contradiction|assumption].
      * split; [discriminate|]. intros H. inversion H; subst; [contradiction|exfalso; auto|]. exfalso.
        match goal with X : In a _ |- _ => apply K in X; rewrite X in E2 end. discriminate E2.
Qed.
Definition plain_name (k : string) : Prop := Forall (fun a => (N_of_ascii a < 128)%N) (list_ascii_of_string k).
Lemma same_high a b : same_letter a b -> (N_of_ascii a < 128)%N -> (N_of_ascii b < 128)%N.
Proof. unfold same_letter. intros [->|[[H1 H2]|[H1 H2]]]; lia. Qed.
Lemma named_both k : forall k' key, plain_name k -> plain_name k' -> named k key -> named k' key -> fold_eq k k' = true.
Proof.
  unfold plain_name. induction k as [|a k IH]; intros k' key P P' H H'.
  - inversion H; subst. inversion H'; subst. reflexivity.
  - inversion P as [|? ? PA PK]; subst. apply named_iff.
    inversion H as [|a0 b k0 key0 SL HN|a0 k0 key0 HA HN|a0 k0 key0 HA HN]; subst;
      inversion H' as [|a' b' k1 key1 SL' HN'|a' k1 key1 HA' HN'|a' k1 key1 HA' HN']; subst; cbn [list_ascii_of_string] in P'; inversion P' as [|? ? PA' PK']; subst;
      try (apply same_high in SL; [vm_compute in SL; discriminate SL|assumption]);
      try (apply same_high in SL'; [vm_compute in SL'; discriminate SL'|assumption]);
      (apply nm_char; [|apply named_iff; eapply IH; eassumption]).
    + apply lower_same. apply lower_same in SL, SL'. congruence.
    + apply lower_same. destruct HA as [<-|[<-|[]]], HA' as [<-|[<-|[]]]; reflexivity.
    + apply lower_same. destruct HA as [<-|[<-|[]]], HA' as [<-|[<-|[]]]; reflexivity.
Qed.
Lemma name_distinct k k' key : plain_name k -> plain_name k' -> fold_eq k k' = false -> fold_eq k key = true -> fold_eq k' key = false.
Proof.
  intros P P' N H. destruct (fold_eq k' key) eqn:E; [|reflexivity]. apply named_iff in H, E. rewrite (named_both k k' key P P' H E) in N. discriminate N.
Qed.

(** ** base64 *)
Lemma code_stands c s : char_sx B64Url c = Some s -> stands c (sx_val s).
Proof.
  destruct c as [[] [] [] [] [] [] [] []]; intros H; vm_compute in H; try discriminate H; injection H as <-; reflexivity.
Qed.
Lemma stands_code c n : stands c n -> exists s, n = sx_val s /\ char_sx B64Url c = Some s.
Proof.
  unfold stands. intros H. assert (L : (N.to_nat n < 64)%nat) by (change 64%nat with (length url_alphabet); apply nth_error_Some; congruence).
  assert (X : forall i, (i < 64)%nat -> nth_error url_alphabet i = Some c -> exists s, N.of_nat i = sx_val s /\ char_sx B64Url c = Some s).
  { clear. intros i Hi H. do 64 (destruct i as [|i]; [injection H as <-; eexists; split; [|vm_compute; reflexivity]; reflexivity|]). lia. }
  destruct (X _ L H) as (s & E & HS). exists s. rewrite <- E, Nnat.N2Nat.id. auto.
Qed.
Lemma byte_val b0 b1 b2 b3 b4 b5 b6 b7 : N_of_ascii (Ascii b0 b1 b2 b3 b4 b5 b6 b7) =
  (b2n b7 1 * 128 + b2n b6 1 * 64 + b2n b5 1 * 32 + b2n b4 1 * 16 + b2n b3 1 * 8 + b2n b2 1 * 4 + b2n b1 1 * 2 + b2n b0 1)%N.
Proof. destruct b0, b1, b2, b3, b4, b5, b6, b7; reflexivity. Qed.
Lemma sx_sum s : sx_val s = (b2n (x5 s) 1 * 32 + b2n (x4 s) 1 * 16 + b2n (x3 s) 1 * 8 + b2n (x2 s) 1 * 4 + b2n (x1 s) 1 * 2 + b2n (x0 s) 1)%N.
Proof. destruct s as [[] [] [] [] [] []]; reflexivity. Qed.
Lemma b2n_le b : (b2n b 1 <= 1)%N.
Proof. destruct b; vm_compute; discriminate. Qed.
Lemma three_bytes p q r t :
  (((sx_val p * 64 + sx_val q) * 64 + sx_val r) * 64 + sx_val t =
   (N_of_ascii (byte_a p q) * 256 + N_of_ascii (byte_b q r)) * 256 + N_of_ascii (byte_c r t))%N.
Proof. unfold byte_a, byte_b, byte_c. rewrite !byte_val, !sx_sum. lia. Qed.
Lemma two_bytes p q r :
  exists rest, (rest < 4 /\ (sx_val p * 64 + sx_val q) * 64 + sx_val r = (N_of_ascii (byte_a p q) * 256 + N_of_ascii (byte_b q r)) * 4 + rest)%N.
Proof.
  exists (b2n (x1 r) 1 * 2 + b2n (x0 r) 1)%N. unfold byte_a, byte_b. rewrite !byte_val, !sx_sum.
  pose proof (b2n_le (x1 r)). pose proof (b2n_le (x0 r)). lia.
Qed.
Lemma one_byte p q : exists rest, (rest < 16 /\ sx_val p * 64 + sx_val q = N_of_ascii (byte_a p q) * 16 + rest)%N.
Proof.
  exists (b2n (x3 q) 1 * 8 + b2n (x2 q) 1 * 4 + b2n (x1 q) 1 * 2 + b2n (x0 q) 1)%N. unfold byte_a. rewrite !byte_val, !sx_sum.
  pose proof (b2n_le (x3 q)). pose proof (b2n_le (x2 q)). pose proof (b2n_le (x1 q)). pose proof (b2n_le (x0 q)). lia.
Qed.
Lemma ascii_eq a b : N_of_ascii a = N_of_ascii b -> a = b.
Proof. intros H. rewrite <- (ascii_N_embedding a), <- (ascii_N_embedding b), H. reflexivity. Qed.
Lemma group_iff g x : group g x <-> exists a b c d p q r t, g = String a (String b (String c (String d ""))) /\
  char_sx B64Url a = Some p /\ char_sx B64Url b = Some q /\ char_sx B64Url c = Some r /\ char_sx B64Url d = Some t /\
  x = String (byte_a p q) (String (byte_b q r) (String (byte_c r t) "")).
Proof.
  split.
  - intros H. destruct H as [a b c d p q r t x y z A B C D E]. apply stands_code in A, B, C, D.
    destruct A as (p' & -> & A), B as (q' & -> & B), C as (r' & -> & C), D as (t' & -> & D).
    exists a, b, c, d, p', q', r', t'. repeat (split; [assumption || reflexivity|]). rewrite three_bytes in E.
    pose proof (N_ascii_bounded x). pose proof (N_ascii_bounded y). pose proof (N_ascii_bounded z).
    pose proof (N_ascii_bounded (byte_a p' q')). pose proof (N_ascii_bounded (byte_b q' r')). pose proof (N_ascii_bounded (byte_c r' t')).
    rewrite (ascii_eq x (byte_a p' q')), (ascii_eq y (byte_b q' r')), (ascii_eq z (byte_c r' t')) by lia. reflexivity.
  - intros (a & b & c & d & p & q & r & t & -> & A & B & C & D & ->).
    apply (gr_3 a b c d (sx_val p) (sx_val q) (sx_val r) (sx_val t)); try (apply code_stands; assumption). apply three_bytes.
Qed.
Lemma last_group_iff g x : last_group g x <->
  (exists a b c p q r, g = String a (String b (String c "=")) /\ char_sx B64Url a = Some p /\ char_sx B64Url b = Some q /\ char_sx B64Url c = Some r /\
     x = String (byte_a p q) (String (byte_b q r) "")) \/
  (exists a b p q, g = String a (String b "==") /\ char_sx B64Url a = Some p /\ char_sx B64Url b = Some q /\ x = String (byte_a p q) "").
Proof.
  split.
  - intros H. destruct H as [a b c p q r x y rest A B C L E|a b p q x rest A B L E].
    + apply stands_code in A, B, C. destruct A as (p' & -> & A), B as (q' & -> & B), C as (r' & -> & C). left. exists a, b, c, p', q', r'.
      repeat (split; [assumption || reflexivity|]). destruct (two_bytes p' q' r') as (rest' & L' & E'). rewrite E' in E.
      pose proof (N_ascii_bounded x). pose proof (N_ascii_bounded y). pose proof (N_ascii_bounded (byte_a p' q')). pose proof (N_ascii_bounded (byte_b q' r')).
      rewrite (ascii_eq x (byte_a p' q')), (ascii_eq y (byte_b q' r')) by lia. reflexivity.
    + apply stands_code in A, B. destruct A as (p' & -> & A), B as (q' & -> & B). right. exists a, b, p', q'.
      repeat (split; [assumption || reflexivity|]). destruct (one_byte p' q') as (rest' & L' & E'). rewrite E' in E.
      rewrite (ascii_eq x (byte_a p' q')) by lia. reflexivity.
  - intros [(a & b & c & p & q & r & -> & A & B & C & ->)|(a & b & p & q & -> & A & B & ->)].
    + destruct (two_bytes p q r) as (rest & L & E). eapply gr_2; try (apply code_stands; eassumption); eassumption.
    + destruct (one_byte p q) as (rest & L & E). eapply gr_1; try (apply code_stands; eassumption); eassumption.
Qed.
Lemma pad_no_code : char_sx B64Url "=" = None.
Proof. reflexivity. Qed.
Lemma prefix_group g x s : group g x -> b64_prefix B64Url (g ++ s) = (x ++ b64_prefix B64Url s)%string.
Proof.
  intros H. apply group_iff in H. destruct H as (a & b & c & d & p & q & r & t & -> & A & B & C & D & ->). cbn [append b64_prefix]. rewrite A, B.
  destruct (Ascii.eqb_spec c "=") as [->|]; [rewrite pad_no_code in C; discriminate C|]. rewrite C.
  destruct (Ascii.eqb_spec d "=") as [->|]; [rewrite pad_no_code in D; discriminate D|]. rewrite D. reflexivity.
Qed.
Lemma prefix_last g x s : last_group g x -> b64_prefix B64Url (g ++ s) = x.
Proof.
  intros H. apply last_group_iff in H. destruct H as [(a & b & c & p & q & r & -> & A & B & C & ->)|(a & b & p & q & -> & A & B & ->)]; cbn [append b64_prefix]; rewrite A, B.
  - destruct (Ascii.eqb_spec c "=") as [->|]; [rewrite pad_no_code in C; discriminate C|]. rewrite C. reflexivity.
  - reflexivity.
Qed.
Lemma prefix_cases s : (exists g x r, s = (g ++ r)%string /\ group g x) \/ (exists g x r, s = (g ++ r)%string /\ last_group g x) \/ b64_prefix B64Url s = "".
Proof.
  destruct s as [|a [|b [|c [|d s]]]]; auto. cbn [b64_prefix].
  destruct (char_sx B64Url a) as [p|] eqn:A; auto. destruct (char_sx B64Url b) as [q|] eqn:B; auto.
  destruct (Ascii.eqb_spec c "=") as [->|].
  { destruct (Ascii.eqb_spec d "=") as [->|]; auto. right. left. exists (String a (String b "==")), (String (byte_a p q) ""), s. split; [reflexivity|].
    apply last_group_iff. right. exists a, b, p, q. auto. }
  destruct (char_sx B64Url c) as [r|] eqn:C; auto.
  destruct (Ascii.eqb_spec d "=") as [->|].
  { right. left. exists (String a (String b (String c "="))). eexists. exists s. split; [reflexivity|]. apply last_group_iff. left. exists a, b, c, p, q, r. auto 10. }
  destruct (char_sx B64Url d) as [t|] eqn:D; auto. left. exists (String a (String b (String c (String d "")))). eexists. exists s. split; [reflexivity|].
  apply group_iff. exists a, b, c, d, p, q, r, t. auto 10.
Qed.
Lemma base64url_iff s d : base64url s d <-> d = b64_prefix B64Url s.
Proof.
  split.
  - intros H. induction H as [g x s d G H IH|g x s G|s H].
    + rewrite (prefix_group g x s G), IH. reflexivity.
    + symmetry. apply prefix_last. exact G.
    + destruct (prefix_cases s) as [(g & x & r & E & G)|[(g & x & r & E & G)|E]]; [..|auto]; destruct (H g x r); auto.
  - intros ->. remember (String.length s) as n eqn:E. revert s E. induction n as [n IH] using (well_founded_induction Nat.lt_wf_0). intros s ->.
    destruct (prefix_cases s) as [(g & x & r & -> & G)|[(g & x & r & -> & G)|E]].
    + rewrite (prefix_group g x r G). apply b6_more; [exact G|]. eapply IH; [|reflexivity]. apply group_iff in G.
      destruct G as (a & b & c & d & p & q & u & t & -> & _). cbn. lia.
    + rewrite (prefix_last g x r G). apply b6_last. exact G.
    + rewrite E. apply b6_end. intros g x r [G|G] ES; subst s.
      * rewrite (prefix_group g x r G) in E. apply group_iff in G. destruct G as (a & b & c & d & p & q & u & t & -> & _ & _ & _ & _ & ->). discriminate E.
      * rewrite (prefix_last g x r G) in E. apply last_group_iff in G. destruct G as [(a & b & c & p & q & u & -> & _ & _ & _ & ->)|(a & b & p & q & -> & _ & _ & ->)]; discriminate E.
Qed.
Lemma strip_breaks s : strip_nl s = without_breaks s.
Proof.
  unfold without_breaks. induction s as [|a s IH]; [reflexivity|]. cbn [strip_nl list_ascii_of_string filter]. cbv zeta. rewrite IH.
  assert (E : (N.eqb (N_of_ascii a) 10 || N.eqb (N_of_ascii a) 13)%bool = (Ascii.eqb a "010" || Ascii.eqb a "013")%bool) by (destruct a as [[] [] [] [] [] [] [] []]; reflexivity).
  rewrite E. clear E. destruct (Ascii.eqb a "010" || Ascii.eqb a "013")%bool; reflexivity.
Qed.
Lemma bytes_iff s d : base64url (without_breaks s) d <-> d = b64_bytes B64Url s.
Proof. unfold b64_bytes. rewrite strip_breaks. apply base64url_iff. Qed.

(** ** Fields *)
Lemma has_value_nil {A} (takes : rvalue -> A -> Prop) zero k : has_value takes zero k [] zero.
Proof. right. split; [reflexivity|]. intros key v []. Qed.
Lemma has_value_step {A} (takes : rvalue -> A -> Prop) zero k pre x key v y :
  has_value takes zero k pre x ->
  (fold_eq k key = true -> takes v y \/ (forall z, ~ takes v z) /\ y = x) -> (fold_eq k key = false -> y = x) ->
  has_value takes zero k (pre ++ [(key, v)]) y.
Proof.
  intros H H1 H2. assert (K : (named k key /\ takes v y) \/ (y = x /\ (named k key -> forall z, ~ takes v z))).
  { destruct (fold_eq k key) eqn:E.
    - apply named_iff in E. destruct (H1 eq_refl) as [T|[T ->]]; auto.
    - right. split; [auto|]. intros N. apply named_iff in N. congruence. }
  destruct K as [[N T]|[-> T]].
  - left. exists pre, key, v, []. split; [reflexivity|]. split; [exact N|]. split; [exact T|]. intros key' v' [].
  - destruct H as [(l1 & key0 & v0 & l2 & -> & N & T0 & R)|[-> R]].
    + left. exists l1, key0, v0, (l2 ++ [(key, v)])%list. split; [rewrite <- app_assoc; reflexivity|]. split; [exact N|]. split; [exact T0|].
      intros key' v' HI. apply in_app_or in HI. destruct HI as [HI|[E|[]]]; [apply R; exact HI|injection E as <- <-; exact T].
    + right. split; [reflexivity|]. intros key' v' HI. apply in_app_or in HI. destruct HI as [HI|[E|[]]]; [apply R; exact HI|injection E as <- <-; exact T].
Qed.
Lemma set_string_takes v t cur : looks v t -> a_string v (set_string cur t) \/ (forall z, ~ a_string v z) /\ set_string cur t = cur.
Proof. intros H. destruct H; cbn [set_string]; try (right; split; [intros y0 (raw0 & E0); discriminate E0|reflexivity]). left. eexists. reflexivity. Qed.
Lemma set_bool_takes v t cur : looks v t -> a_bool v (set_bool cur t) \/ (forall z, ~ a_bool v z) /\ set_bool cur t = cur.
Proof. intros H. destruct H; cbn [set_bool]; try (right; split; [intros y0 E0; discriminate E0|reflexivity]). left. reflexivity. Qed.
Lemma set_int_takes v t cur : looks v t -> an_int v (set_int cur t) \/ (forall z, ~ an_int v z) /\ set_int cur t = cur.
Proof.
  intros H. destruct H as [| |x z E| | |]; cbn [set_int]; try (right; split; [intros y0 (m0 & d0 & E0 & _); discriminate E0|reflexivity]).
  subst z. destruct (int_of x) as [z|] eqn:E.
  - left. destruct x as [m i f e]. unfold int_of in E. cbn [n_frac n_exp n_minus n_int] in E. destruct f; [|discriminate E]. destruct e; [discriminate E|].
    destruct (is_int64 (signed m (decimal i))) eqn:B; [|discriminate E]. injection E as <-. exists m, i. split; [reflexivity|]. split; [reflexivity|].
    unfold is_int64 in B. apply andb_true_iff in B. destruct B as [B1 B2]. apply Z.leb_le in B1. apply Z.ltb_lt in B2. change two63 with (2 ^ 63)%Z in *. lia.
  - right. split; [|reflexivity]. intros z (m & d & EX & -> & B). injection EX as ->. unfold int_of in E. cbn [n_frac n_exp n_minus n_int] in E.
    rewrite (int64_range _ B) in E. discriminate E.
Qed.
Lemma type_iff raw t : flow_type_of raw = Some t <-> raw = flow_name t.
Proof.
  unfold flow_type_of. split.
  - destruct (raw =s? "authorization_code") eqn:E1; [apply seqb_eq in E1; intros H; injection H as <-; exact E1|].
    destruct (raw =s? "implicit") eqn:E2; [apply seqb_eq in E2; intros H; injection H as <-; exact E2|].
    destruct (raw =s? "hybrid") eqn:E3; [apply seqb_eq in E3; intros H; injection H as <-; exact E3|].
    destruct (raw =s? "direct_grant") eqn:E4; [apply seqb_eq in E4; intros H; injection H as <-; exact E4|discriminate].
  - intros ->. destruct t; reflexivity.
Qed.

(** ** The flow *)
Definition flow_fields (ms : list member) (f : flow) : Prop :=
  has_value a_type FAuthorizationCode "type" ms (f_type f) /\
  has_value a_bool false "require_access_token" ms (f_access f) /\
  has_value a_bool false "require_id_token" ms (f_id f).
Ltac distinct := match goal with
  | E : fold_eq ?k ?key = true |- fold_eq ?k' ?key = true -> _ =>
      let X := fresh in intros X; exfalso;
      rewrite (name_distinct k k' key ltac:(repeat constructor) ltac:(repeat constructor) eq_refl E) in X; discriminate X
  | E : fold_eq ?k ?key = false |- fold_eq ?k ?key = true -> _ => rewrite E; discriminate
  | E : fold_eq ?k ?key = true |- fold_eq ?k ?key = false -> _ => rewrite E; discriminate
  | |- fold_eq ?k ?key = false -> _ => reflexivity
  end.
Ltac kept := eapply has_value_step; [eassumption|distinct|intros _; reflexivity].
Lemma type_member_bad v t : looks v t -> (exists raw s ft, t = TStr raw s /\ flow_type_of raw = Some ft /\ a_type v ft) \/
  (match t with TStr raw _ => flow_type_of raw | _ => None end = None /\ forall ft, ~ a_type v ft).
Proof.
  intros H. destruct H; try (right; split; [reflexivity|intros ft (s0 & E); discriminate E]).
  destruct (flow_type_of raw) as [ft|] eqn:E.
  - left. exists raw, s, ft. repeat split; auto. apply type_iff in E. subst raw. eexists. reflexivity.
  - right. split; [reflexivity|]. intros ft (s0 & E0). injection E0 as -> ->. rewrite (proj2 (type_iff _ ft) eq_refl) in E. discriminate E.
Qed.
Lemma flow_member_step ms f key v t f' ok : flow_fields ms f -> looks v t -> flow_member f key t = (f', ok) ->
  flow_fields (ms ++ [(key, v)]) f' /\ (ok = false <-> bad_type (key, v)).
Proof.
  intros (H1 & H2 & H3) HL HM. unfold flow_member in HM. unfold bad_type. cbn [fst snd].
  destruct (fold_eq "type" key) eqn:E1.
  { assert (N : named "type" key) by (apply named_iff; exact E1).
    destruct (type_member_bad v t HL) as [(raw & s & ft & -> & EF & HA)|[EN HB]].
    - rewrite EF in HM. injection HM as <- <-. split.
      + unfold flow_fields. cbn [f_type f_access f_id]. split; [|split; kept]. eapply has_value_step; [exact H1|auto|rewrite E1; discriminate].
      + split; [discriminate|]. intros [_ X]. destruct (X ft HA).
    - assert (EM : (f, false) = (f', ok)) by (destruct t; try exact HM; rewrite EN in HM; exact HM). injection EM as <- <-. split.
      + unfold flow_fields. split; [|split; kept]. eapply has_value_step; [exact H1|auto|reflexivity].
      + split; auto. }
  assert (NB : ~ (named "type" key /\ forall ft, ~ a_type v ft)) by (intros [N _]; apply named_iff in N; congruence).
  destruct (fold_eq "require_access_token" key) eqn:E2; [|destruct (fold_eq "require_id_token" key) eqn:E3];
    injection HM as <- <-; (split; [unfold flow_fields; cbn [f_type f_access f_id]|split; [discriminate|intros X; destruct (NB X)]]).
  - split; [kept|]. split; [|kept]. eapply has_value_step; [exact H2|intros _; apply set_bool_takes, HL|rewrite E2; discriminate].
  - split; [kept|]. split; [kept|]. eapply has_value_step; [exact H3|intros _; apply set_bool_takes, HL|rewrite E3; discriminate].
  - split; [kept|]. split; kept.
Qed.
Lemma fill_flow_spec m : forall t ms f f' ok, Forall2 (fun p q => fst p = fst q /\ looks (snd p) (snd q)) m t ->
  flow_fields ms f -> fill_flow f t = (f', ok) ->
  exists m', considered bad_type m m' /\ flow_fields (ms ++ m') f' /\ (ok = false <-> Exists bad_type m).
Proof.
  induction m as [|[k v] m IH]; intros t ms f f' ok HL HF HE; inversion HL as [|? [k' tv] ? t' [HK HV] HL']; subst; cbn [fill_flow] in HE.
  - injection HE as <- <-. exists []. rewrite app_nil_r. split; [apply co_all; intros X; inversion X|]. split; [exact HF|]. split; [discriminate|intros X; inversion X].
  - cbn [fst snd] in HK, HV. subst k'. destruct (flow_member f k tv) as [f1 ok1] eqn:E1.
    destruct (flow_member_step ms f k v tv f1 ok1 HF HV E1) as [HF1 HB]. destruct ok1.
    + assert (NB : ~ bad_type (k, v)) by (intros X; apply HB in X; discriminate X).
      destruct (IH t' _ f1 f' ok HL' HF1 HE) as (m' & HC & HF' & HO). exists ((k, v) :: m'). split; [|split].
      * inversion HC as [l HN EL1 EL2|l b r HN HB' EL1 EL2]; subst.
        -- apply co_all. intros X. inversion X; contradiction.
        -- apply (co_bad bad_type ((k, v) :: l) b r); [intros X; inversion X; contradiction|exact HB'].
      * rewrite <- app_assoc in HF'. exact HF'.
      * rewrite HO. split; [intros X; right; exact X|intros X; inversion X; [contradiction|assumption]].
    + injection HE as <- <-. exists [(k, v)]. assert (B : bad_type (k, v)) by (apply HB; reflexivity).
      split; [apply (co_bad bad_type [] (k, v) m); [intros X; inversion X|exact B]|]. split; [exact HF1|]. split; [intros _; left; exact B|reflexivity].
Qed.
Lemma gathered_app l ms l' ms' : gathered l ms -> gathered l' ms' -> gathered (l ++ l') (ms ++ ms').
Proof.
  intros H H'. induction H; cbn [app].
  - exact H'.
  - apply ga_other; assumption.
  - rewrite <- app_assoc. apply ga_object; assumption.
  - apply ga_value; assumption.
Qed.
Lemma no_flow_fields : flow_fields [] no_flow.
Proof. repeat split; apply has_value_nil. Qed.
Lemma gathered_none l ms : gathered l ms -> (forall k v, In (k, v) l -> ~ named "flow" k) -> ms = [].
Proof.
  intros H. induction H as [|k v l ms N H IH|k m m' l ms N C H IH|k v l ms N N1 N2 H IH]; intros X.
  - reflexivity.
  - apply IH. intros k0 v0 HI. apply (X k0 v0). right. exact HI.
  - destruct (X k (RObj m)); [left; reflexivity|exact N].
  - destruct (X k v); [left; reflexivity|exact N].
Qed.
Lemma set_flow_step pre f key v t f' ok : flow_value pre f -> looks v t -> named "flow" key -> set_flow f t = (f', ok) ->
  flow_value (pre ++ [(key, v)]) f' /\ (ok = false <-> bad_flow (key, v)).
Proof.
  intros (l1 & l2 & ms & -> & HL1 & HG & HF) HL N HS. unfold set_flow in HS. cbv zeta in HS.
  assert (BASE : flow_fields ms (match f with Some f => f | None => no_flow end)).
  { destruct f as [f|]; [exact (proj2 HF)|]. rewrite (gathered_none l2 ms HG HF). apply no_flow_fields. }
  assert (EX : exists k v0, In (k, v0) (l2 ++ [(key, v)]) /\ named "flow" k) by (exists key, v; split; [apply in_or_app; right; left; reflexivity|exact N]).
  assert (OTHER : v <> RNull -> (forall m, v <> RObj m) -> forall f0, f0 = (match f with Some f => f | None => no_flow end) ->
    flow_value ((l1 ++ l2) ++ [(key, v)]) (Some f0)).
  { intros V1 V2 f0 ->. exists l1, (l2 ++ [(key, v)])%list, (ms ++ [])%list. split; [rewrite <- app_assoc; reflexivity|]. split; [exact HL1|].
    split; [apply gathered_app; [exact HG|apply ga_value; auto; constructor]|]. split; [exact EX|]. rewrite app_nil_r. exact BASE. }
  unfold bad_flow. cbn [fst snd].
  destruct HL as [|b|x z Z|raw s|l l' HL|l l' HL].
  - injection HS as <- <-. split; [|split; [discriminate|intros (_ & l & E & _); discriminate E]].
    exists ((l1 ++ l2) ++ [(key, RNull)])%list, [], []. split; [rewrite app_nil_r; reflexivity|]. split; [right; eauto|]. split; [constructor|]. intros k v [].
  - injection HS as <- <-. split; [apply OTHER; [discriminate|discriminate|reflexivity]|]. split; [discriminate|intros (_ & l & E & _); discriminate E].
  - injection HS as <- <-. split; [apply OTHER; [discriminate|discriminate|reflexivity]|]. split; [discriminate|intros (_ & l & E & _); discriminate E].
  - injection HS as <- <-. split; [apply OTHER; [discriminate|discriminate|reflexivity]|]. split; [discriminate|intros (_ & l & E & _); discriminate E].
  - injection HS as <- <-. split; [apply OTHER; [discriminate|discriminate|reflexivity]|]. split; [discriminate|intros (_ & l0 & E & _); discriminate E].
  - destruct (fill_flow _ l') as [f1 ok1] eqn:EF. injection HS as <- <-.
    destruct (fill_flow_spec l l' ms _ f1 ok1 HL BASE EF) as (m' & HC & HF1 & HO). split.
    + exists l1, (l2 ++ [(key, RObj l)])%list, (ms ++ (m' ++ []))%list. split; [rewrite <- app_assoc; reflexivity|]. split; [exact HL1|].
      split; [apply gathered_app; [exact HG|apply ga_object; auto; constructor]|]. split; [exact EX|]. rewrite app_nil_r. exact HF1.
    + rewrite HO. split; [intros X; eauto|]. intros (_ & l0 & E & X). injection E as <-. exact X.
Qed.
Lemma flow_value_other pre f key v : flow_value pre f -> fold_eq "flow" key = false -> flow_value (pre ++ [(key, v)]) f.
Proof.
  intros (l1 & l2 & ms & -> & HL1 & HG & HF) E. assert (N : ~ named "flow" key) by (intros X; apply named_iff in X; congruence).
  exists l1, (l2 ++ [(key, v)])%list, (ms ++ [])%list. split; [rewrite <- app_assoc; reflexivity|]. split; [exact HL1|].
  split; [apply gathered_app; [exact HG|apply ga_other; [exact N|constructor]]|]. rewrite app_nil_r. destruct f as [f|].
  - destruct HF as [(k & v0 & HI & HN) HF]. split; [|exact HF]. exists k, v0. split; [apply in_or_app; left; exact HI|exact HN].
  - intros k v0 HI. apply in_app_or in HI. destruct HI as [HI|[X|[]]]; [eapply HF; exact HI|]. injection X as <- _. exact N.
Qed.

(** ** The request *)
Record said (l : list member) (q : arequest) : Prop := {
  sd_flow : flow_value l (rq_flow q);
  sd_client : has_value a_string "" "client_id" l (rq_client q);
  sd_scope : has_value a_string "" "scope" l (rq_scope q);
  sd_redirect : has_value a_string "" "redirect_uri" l (rq_redirect q);
  sd_mode : has_value a_string "" "response_mode" l (rq_mode q);
  sd_state : has_value a_string "" "state" l (rq_state q);
  sd_verifier : has_value a_string "" "code_verifier" l (rq_verifier q);
  sd_nonce : has_value a_string "" "nonce" l (rq_nonce q);
  sd_display : has_value a_string "" "display" l (rq_display q);
  sd_prompt : has_value a_string "" "prompt" l (rq_prompt q);
  sd_max_age : has_value an_int 0%Z "max_age" l (rq_max_age q);
  sd_locale : has_value a_string "" "ui_locale" l (rq_locale q);
  sd_hint : has_value a_string "" "id_token_hint" l (rq_idt_hint q);
  sd_login : has_value a_string "" "login_hint" l (rq_login_hint q) }.
Lemma request_member_step l q key v t q' ok : said l q -> looks v t -> request_member q key t = (q', ok) ->
  said (l ++ [(key, v)]) q' /\ (ok = false <-> bad_flow (key, v)).
Proof.
  intros [H1 H2 H3 H4 H5 H6 H7 H8 H9 H10 H11 H12 H13 H14] HL HM. destruct q as [f c s ru m st cv n d p ma lo ih lh].
  cbn [rq_flow rq_client rq_scope rq_redirect rq_mode rq_state rq_verifier rq_nonce rq_display rq_prompt rq_max_age rq_locale rq_idt_hint rq_login_hint] in *.
  unfold request_member in HM. destruct (fold_eq "flow" key) eqn:E1.
  { destruct (set_flow f t) as [f1 ok1] eqn:ES. injection HM as <- <-.
    destruct (set_flow_step l f key v t f1 ok1 H1 HL (proj1 (named_iff _ _) E1) ES) as [HF HB]. split; [|exact HB].
    constructor; cbn [rq_flow rq_client rq_scope rq_redirect rq_mode rq_state rq_verifier rq_nonce rq_display rq_prompt rq_max_age rq_locale rq_idt_hint rq_login_hint];
      [exact HF|kept..]. }
  assert (NB : ~ bad_flow (key, v)) by (intros [N _]; apply named_iff in N; cbn [fst] in N; congruence).
  assert (OK : forall q1, (q1, true) = (q', ok) -> said (l ++ [(key, v)]) q1 -> said (l ++ [(key, v)]) q' /\ (ok = false <-> bad_flow (key, v))).
  { intros q1 X HS. injection X as <- <-. split; [exact HS|]. split; [discriminate|intros X; destruct (NB X)]. }
  repeat match type of HM with (if fold_eq ?k key then _ else _) = _ => destruct (fold_eq k key) eqn:?E end;
    (eapply OK; [exact HM|]; constructor;
     cbn [rq_flow rq_client rq_scope rq_redirect rq_mode rq_state rq_verifier rq_nonce rq_display rq_prompt rq_max_age rq_locale rq_idt_hint rq_login_hint];
     [apply flow_value_other; assumption|..]; first [kept | eapply has_value_step; [eassumption|intros _; (apply set_string_takes || apply set_int_takes); exact HL|intros X; congruence]]).
Qed.
Lemma fill_request_spec l : forall t pre q, Forall2 (fun p q => fst p = fst q /\ looks (snd p) (snd q)) l t ->
  ~ Exists bad_flow pre -> said pre q -> exists l', considered bad_flow (pre ++ l) l' /\ said l' (fill_request q t).
Proof.
  induction l as [|[k v] l IH]; intros t pre q HL HN HS; inversion HL as [|? [k' tv] ? t' [HK HV] HL']; subst; cbn [fill_request].
  - exists pre. rewrite app_nil_r. split; [apply co_all; exact HN|exact HS].
  - cbn [fst snd] in HK, HV. subst k'. destruct (request_member q k tv) as [q1 ok] eqn:E. destruct (request_member_step pre q k v tv q1 ok HS HV E) as [HS1 HB].
    destruct ok.
    + assert (N1 : ~ Exists bad_flow (pre ++ [(k, v)])).
      { intros X. apply Exists_app in X. destruct X as [X|X]; [exact (HN X)|]. inversion X as [? ? B|? ? B]; subst; [apply HB in B; discriminate B|inversion B]. }
      destruct (IH t' _ q1 HL' N1 HS1) as (l' & HC & HS'). exists l'. rewrite <- app_assoc in HC. auto.
    + exists (pre ++ [(k, v)])%list. split; [|exact HS1]. apply co_bad; [exact HN|]. apply HB. reflexivity.
Qed.
Lemma said_nil : said [] zero_request.
Proof.
  constructor; try apply has_value_nil. exists [], [], []. split; [reflexivity|]. split; [left; reflexivity|]. split; [constructor|]. intros k v [].
Qed.
Lemma said_read l' q l : considered bad_flow l l' -> (said l' q <-> Forall (fun p => has_value a_string "" (fst p) l' (snd p))
    [("client_id", rq_client q); ("scope", rq_scope q); ("redirect_uri", rq_redirect q); ("response_mode", rq_mode q);
     ("state", rq_state q); ("code_verifier", rq_verifier q); ("nonce", rq_nonce q); ("display", rq_display q);
     ("prompt", rq_prompt q); ("ui_locale", rq_locale q); ("id_token_hint", rq_idt_hint q); ("login_hint", rq_login_hint q)] /\
  has_value an_int 0%Z "max_age" l' (rq_max_age q) /\ flow_value l' (rq_flow q)).
Proof.
  intros _. split.
  - intros []. split; [repeat (constructor; [assumption|]); constructor|]. auto.
  - intros (H & H1 & H2). repeat match goal with X : Forall _ (_ :: _) |- _ => inversion X; clear X; subst end. constructor; assumption.
Qed.
Fixpoint tree_of (x : rvalue) : jtree :=
  match x with
  | RNull => TNull
  | RBool b => TBool b
  | RNum x => TNum (int_of x)
  | RStr raw s => TStr raw s
  | RArr l => TArr (map tree_of l)
  | RObj l => TObj (map (fun p => (fst p, tree_of (snd p))) l)
  end.
Fixpoint looks_tree (x : rvalue) : looks x (tree_of x).
Proof.
  destruct x as [|b|x|raw s|l|l]; cbn [tree_of]; constructor; try reflexivity.
  - induction l as [|x l IH]; cbn [map]; constructor; [apply looks_tree|exact IH].
  - induction l as [|[k x] l IH]; cbn [map]; constructor; [split; [reflexivity|apply looks_tree]|exact IH].
Qed.
Lemma looks_object x l : looks x (TObj l) -> exists m, x = RObj m /\ Forall2 (fun p q => fst p = fst q /\ looks (snd p) (snd q)) m l.
Proof. intros H. inversion H; subst. eauto. Qed.
Lemma decode_request_sound s : request_in s (decode_request s).
Proof.
  exists (b64_bytes B64Url s). split; [apply bytes_iff; reflexivity|]. unfold decode_request. set (data := b64_bytes B64Url s).
  assert (NO : (forall l, tree_of_text data <> Some (TObj l)) -> forall l, ~ go_text data (RObj l)).
  { intros X l H. apply (X (map (fun p => (fst p, tree_of (snd p))) l)). apply tree_text_iff. exists (RObj l). split; [exact H|apply (looks_tree (RObj l))]. }
  destruct (tree_of_text data) as [v|] eqn:E; [|right; split; [apply NO; discriminate|reflexivity]].
  destruct v as [| | | | |t]; try (right; split; [apply NO; discriminate|reflexivity]). left.
  apply tree_text_iff in E. destruct E as (x & HX & HL). apply looks_object in HL. destruct HL as (l & -> & HL). exists l. split; [exact HX|].
  destruct (fill_request_spec l t [] zero_request HL) as (l' & HC & HS); [intros X; inversion X|apply said_nil|]. exists l'. split; [exact HC|].
  apply (said_read l' _ _ HC). exact HS.
Qed.

(** ** Only one request *)
Lemma split_last {A} (P : A -> Prop) l1 a l2 : forall l1' a' l2', (l1 ++ a :: l2 = l1' ++ a' :: l2')%list ->
  P a -> P a' -> (forall x, In x l2 -> ~ P x) -> (forall x, In x l2' -> ~ P x) -> l1 = l1' /\ a = a' /\ l2 = l2'.
Proof.
  induction l1 as [|b l1 IH]; intros [|b' l1'] a' l2' E HA HA' H H'; cbn [app] in E; injection E as E1 E2.
  - auto.
  - exfalso. subst. apply (H a'); [|exact HA']. apply in_or_app. right. left. reflexivity.
  - exfalso. subst. apply (H' a); [|exact HA]. apply in_or_app. right. left. reflexivity.
  - subst b'. destruct (IH l1' a' l2' E2 HA HA' H H') as (-> & -> & ->). auto.
Qed.
Lemma has_value_unique {A} (takes : rvalue -> A -> Prop) zero k l x y : (forall v a b, takes v a -> takes v b -> a = b) ->
  has_value takes zero k l x -> has_value takes zero k l y -> x = y.
Proof.
  intros HU H H'. destruct H as [(l1 & key & v & l2 & -> & N & T & R)|[-> R]], H' as [(l1' & key' & v' & l2' & E' & N' & T' & R')|[-> R']].
  - destruct (split_last (fun m => named k (fst m) /\ exists z, takes (snd m) z) l1 (key, v) l2 l1' (key', v') l2' E') as (_ & E & _); cbn [fst snd]; eauto.
    + intros [k0 v0] HI [HN [z HT]]. exact (R k0 v0 HI HN z HT).
    + intros [k0 v0] HI [HN [z HT]]. exact (R' k0 v0 HI HN z HT).
    + injection E as -> ->. eapply HU; eassumption.
  - exfalso. refine (R' key v _ N x T). apply in_or_app. right. left. reflexivity.
  - subst l. exfalso. refine (R key' v' _ N' y T'). apply in_or_app. right. left. reflexivity.
  - reflexivity.
Qed.
Lemma considered_unique (bad : member -> Prop) l l1 l2 : considered bad l l1 -> considered bad l l2 -> l1 = l2.
Proof.
  intros H H'. inversion H as [a HN E1 E2|a m r HN HB E1 E2]; subst; inversion H' as [a' HN' E1' E2'|a' m' r' HN' HB' E1' E2']; subst.
  - reflexivity.
  - exfalso. apply HN. apply Exists_app. right. left. exact HB'.
  - exfalso. apply HN'. apply Exists_app. right. left. exact HB.
  - clear H H'. revert a' HN' E1'. induction a as [|x a IH]; intros [|x' a'] HN' E; cbn [app] in E; injection E as E1 E2.
    + subst. reflexivity.
    + exfalso. subst. apply HN'. left. exact HB.
    + exfalso. subst. apply HN. left. exact HB'.
    + subst x'. cbn [app]. f_equal. apply IH; [intros X; apply HN; right; exact X|intros X; apply HN'; right; exact X|exact E2].
Qed.
Lemma gathered_unique l ms : gathered l ms -> forall ms', gathered l ms' -> ms = ms'.
Proof.
  induction 1 as [|k v l ms N H IH|k m m' l ms N C H IH|k v l ms N N1 N2 H IH]; intros ms' H'; inversion H'; subst; try contradiction; auto.
  - f_equal; [|auto]. eapply considered_unique; eassumption.
  - exfalso. match goal with X : forall m0, RObj _ <> RObj m0 |- _ => exact (X _ eq_refl) end.
  - exfalso. match goal with X : forall m0, RObj _ <> RObj m0 |- _ => exact (X _ eq_refl) end.
Qed.
Lemma gathered_no_null l ms : gathered l ms -> forall k, In (k, RNull) l -> ~ named "flow" k.
Proof.
  induction 1 as [|k v l ms N H IH|k m m' l ms N C H IH|k v l ms N N1 N2 H IH]; intros k0 HI; try destruct HI as [E|HI]; try (apply IH; exact HI); try destruct HI.
  - injection E as <- _. exact N.
  - discriminate E.
  - injection E as <- E. contradiction.
Qed.
Lemma after_null l1 l2 l1' l2' : (l1 ++ l2 = l1' ++ l2')%list ->
  (l1 = [] \/ exists l0 k, l1 = (l0 ++ [(k, RNull)])%list /\ named "flow" k) -> (l1' = [] \/ exists l0 k, l1' = (l0 ++ [(k, RNull)])%list /\ named "flow" k) ->
  (forall k, In (k, RNull) l2 -> ~ named "flow" k) -> (forall k, In (k, RNull) l2' -> ~ named "flow" k) -> l2 = l2'.
Proof.
  intros E H H' N N'. destruct H as [->|(l0 & k & -> & HK)], H' as [->|(l0' & k' & -> & HK')]; cbn [app] in E.
  - exact E.
  - exfalso. subst l2. apply (N k'); [|exact HK']. apply in_or_app. left. apply in_or_app. right. left. reflexivity.
  - exfalso. rewrite <- E in N'. apply (N' k); [|exact HK]. apply in_or_app. left. apply in_or_app. right. left. reflexivity.
  - rewrite <- !app_assoc in E. cbn [app] in E.
    destruct (split_last (fun m => snd m = RNull /\ named "flow" (fst m)) l0 (k, RNull) l2 l0' (k', RNull) l2' E) as (_ & _ & R); auto.
    + intros [k0 v0] HI [X Y]. cbn [fst snd] in *. subst v0. exact (N k0 HI Y).
    + intros [k0 v0] HI [X Y]. cbn [fst snd] in *. subst v0. exact (N' k0 HI Y).
Qed.
Lemma a_string_fun v a b : a_string v a -> a_string v b -> a = b.
Proof. intros (r & ->) (r' & E). congruence. Qed.
Lemma a_bool_fun v a b : a_bool v a -> a_bool v b -> a = b.
Proof. unfold a_bool. congruence. Qed.
Lemma an_int_fun v a b : an_int v a -> an_int v b -> a = b.
Proof. intros (m & d & -> & -> & _) (m' & d' & E & -> & _). injection E as <- <-. reflexivity. Qed.
Lemma a_type_fun v a b : a_type v a -> a_type v b -> a = b.
Proof. intros (s & ->) (s' & E). destruct a, b; (reflexivity || discriminate E). Qed.
Lemma flow_value_unique l f f' : flow_value l f -> flow_value l f' -> f = f'.
Proof.
  intros (l1 & l2 & ms & -> & HL & HG & HF) (l1' & l2' & ms' & E & HL' & HG' & HF').
  pose proof (after_null _ _ _ _ E HL HL' (gathered_no_null _ _ HG) (gathered_no_null _ _ HG')) as E2. subst l2'.
  rewrite <- (gathered_unique _ _ HG _ HG') in HF'.
  destruct f as [f|], f' as [f'|].
  - destruct HF as (_ & H1 & H2 & H3), HF' as (_ & H1' & H2' & H3'). destruct f as [ft fa fi], f' as [ft' fa' fi']. cbn [f_type f_access f_id] in *.
    rewrite (has_value_unique _ _ _ _ _ _ a_type_fun H1 H1'), (has_value_unique _ _ _ _ _ _ a_bool_fun H2 H2'), (has_value_unique _ _ _ _ _ _ a_bool_fun H3 H3'). reflexivity.
  - exfalso. destruct HF as [(k & v & HI & HN) _]. exact (HF' k v HI HN).
  - exfalso. destruct HF' as [(k & v & HI & HN) _]. exact (HF k v HI HN).
  - reflexivity.
Qed.
Lemma said_unique l q q' : said l q -> said l q' -> q = q'.
Proof.
  destruct q as [x1 x2 x3 x4 x5 x6 x7 x8 x9 x10 x11 x12 x13 x14], q' as [y1 y2 y3 y4 y5 y6 y7 y8 y9 y10 y11 y12 y13 y14].
  intros [] []. cbn [rq_flow rq_client rq_scope rq_redirect rq_mode rq_state rq_verifier rq_nonce rq_display rq_prompt rq_max_age rq_locale rq_idt_hint rq_login_hint] in *.
  f_equal; try (eapply has_value_unique; [apply a_string_fun|eassumption|eassumption]).
  - eapply flow_value_unique; eassumption.
  - eapply has_value_unique; [apply an_int_fun|eassumption|eassumption].
Qed.
Lemma read_as_unique l q q' : read_as l q -> read_as l q' -> q = q'.
Proof.
  intros (l1 & C & H) (l2 & C' & H'). rewrite <- (considered_unique _ _ _ _ C C') in H'.
  apply (said_read l1 q l C) in H. apply (said_read l1 q' l C) in H'. eapply said_unique; eassumption.
Qed.
Lemma decode_object s l : go_text (b64_bytes B64Url s) (RObj l) -> read_as l (decode_request s).
Proof.
  intros H. assert (HT : tree_of_text (b64_bytes B64Url s) = Some (tree_of (RObj l))) by (apply tree_text_iff; exists (RObj l); split; [exact H|apply looks_tree]).
  unfold decode_request. rewrite HT. cbn [tree_of]. pose proof (looks_tree (RObj l)) as HL. cbn [tree_of] in HL. inversion HL as [| | | | |? ? HL']; subst.
  destruct (fill_request_spec l _ [] zero_request HL') as (l' & HC & HS); [intros X; inversion X|apply said_nil|]. exists l'. split; [exact HC|].
  apply (said_read l' _ _ HC). exact HS.
Qed.
Lemma decode_other s : (forall l, ~ go_text (b64_bytes B64Url s) (RObj l)) -> decode_request s = zero_request.
Proof.
  intros H. unfold decode_request. destruct (tree_of_text (b64_bytes B64Url s)) as [[]|] eqn:E; try reflexivity.
  apply tree_text_iff in E. destruct E as (x & HX & HL). apply looks_object in HL. destruct HL as (m & -> & _). destruct (H m HX).
Qed.
Lemma decode_request_iff s q : request_in s q <-> decode_request s = q.
Proof.
  split; [|intros <-; apply decode_request_sound]. intros (data & HD & H). apply bytes_iff in HD. subst data. destruct H as [(l & HJ & HR)|[HN ->]].
  - eapply read_as_unique; [apply decode_object; exact HJ|exact HR].
  - apply decode_other. exact HN.
Qed.
