(** * The SHA-2 of Sha.v computes the digests of FIPS 180-4. *)
From Coq Require Import List NArith Bool Arith Lia.
From Verif Require Import GoStr Spec.
From Verif Require Sha ShaFacts.
From Verif Require Import FipsSpec.
Import ListNotations.
Open Scope list_scope.

(** ** Bits and numbers *)
Lemma bits_length w : forall n, length (bits w n) = w.
Proof. induction w as [|w IH]; intros n; cbn [bits]; [reflexivity|]. rewrite app_length, IH. cbn. lia. Qed.
Lemma bits_test w : forall n, bits w n = map (fun i => N.testbit n (N.of_nat i)) (rev (seq 0 w)).
Proof.
  induction w as [|w IH]; intros n; [reflexivity|]. cbn [bits]. rewrite IH.
  replace (rev (seq 0 (S w))) with (map S (rev (seq 0 w)) ++ [0]%nat) by (rewrite map_rev, seq_shift; reflexivity).
  rewrite map_app, map_map. cbn [map]. f_equal; [|rewrite N.bit0_odd; reflexivity].
  apply map_ext. intros i. rewrite Nnat.Nat2N.inj_succ. rewrite <- N.div2_div. rewrite N.div2_spec. rewrite N.shiftr_spec by apply N.le_0_l.
  f_equal. lia.
Qed.
Lemma value_app x y : value (x ++ y) = (value x * 2 ^ N.of_nat (length y) + value y)%N.
Proof.
  unfold value. rewrite fold_left_app. generalize (fold_left (fun n b => 2 * n + (if b : bool then 1 else 0))%N x 0%N) as n.
  induction y as [|b y IH] using rev_ind; intros n; cbn [fold_left length]; [rewrite N.mul_1_r, N.add_0_r; reflexivity|].
  rewrite !fold_left_app. cbn [fold_left]. rewrite IH, app_length. cbn [length].
  replace (N.of_nat (length y + 1)) with (N.succ (N.of_nat (length y))) by lia. rewrite N.pow_succ_r'. lia.
Qed.
Lemma value_lt x : (value x < 2 ^ N.of_nat (length x))%N.
Proof.
  induction x as [|b x IH] using rev_ind; [cbn; lia|]. rewrite value_app, app_length. cbn [length].
  replace (N.of_nat (length x + 1)) with (N.succ (N.of_nat (length x))) by lia. rewrite N.pow_succ_r'.
  change (2 ^ N.of_nat 1)%N with 2%N. destruct b; [change (value [true]) with 1%N|change (value [false]) with 0%N]; lia.
Qed.
Lemma value_bits w : forall n, value (bits w n) = (n mod 2 ^ N.of_nat w)%N.
Proof.
  induction w as [|w IH]; intros n; [cbn; rewrite N.mod_1_r; reflexivity|]. cbn [bits]. rewrite value_app, IH. cbn [length]. change (2 ^ N.of_nat 1)%N with 2%N.
  rewrite Nnat.Nat2N.inj_succ, N.pow_succ_r'. set (m := (2 ^ N.of_nat w)%N). assert (m <> 0)%N by (apply N.pow_nonzero; lia).
  rewrite N.mod_mul_r by lia.
  assert (value [N.odd n] = n mod 2)%N as ->.
  { rewrite <- N.bit0_mod, N.bit0_odd. destruct (N.odd n); reflexivity. }
  lia.
Qed.
Lemma bits_value_id x : bits (length x) (value x) = x.
Proof.
  induction x as [|b x IH] using rev_ind; [reflexivity|]. rewrite app_length. cbn [length].
  replace (length x + 1)%nat with (S (length x)) by lia. cbn [bits]. rewrite value_app. cbn [length].
  change (2 ^ N.of_nat 1)%N with 2%N. assert (E : value [b] = N.b2n b) by (destruct b; reflexivity). rewrite E. f_equal.
  - etransitivity; [|exact IH]. f_equal. symmetry. apply (N.div_unique _ 2 _ (N.b2n b)); [destruct b; cbn; lia|lia].
  - f_equal. rewrite N.odd_add, N.odd_mul. destruct b; cbn; rewrite andb_false_r; reflexivity.
Qed.
Lemma bits_mod w n : bits w (n mod 2 ^ N.of_nat w) = bits w n.
Proof. rewrite <- value_bits. rewrite <- (bits_length w n) at 1. apply bits_value_id. Qed.
Lemma bits_small w n : (n < 2 ^ N.of_nat w)%N -> value (bits w n) = n.
Proof. intros H. rewrite value_bits. apply N.mod_small. exact H. Qed.

(** ** Operations *)
Lemma combine_map {A B C} (f : A -> B) (g : A -> C) l : combine (map f l) (map g l) = map (fun x => (f x, g x)) l.
Proof. induction l as [|x l IH]; cbn; congruence. Qed.
Lemma xor_bits w a b : xor (bits w a) (bits w b) = bits w (N.lxor a b).
Proof.
  unfold xor. rewrite !bits_test, combine_map, map_map. apply map_ext. intros i. cbn. rewrite N.lxor_spec. reflexivity.
Qed.
Lemma conj_bits w a b : conj (bits w a) (bits w b) = bits w (N.land a b).
Proof.
  unfold conj. rewrite !bits_test, combine_map, map_map. apply map_ext. intros i. cbn. rewrite N.land_spec. reflexivity.
Qed.
Lemma ch_bits w x y z : ch (bits w x) (bits w y) (bits w z) = bits w (Sha.ch' x y z).
Proof.
  unfold ch, compl, Sha.ch', xor, conj. rewrite !bits_test. rewrite map_map. rewrite !combine_map, !map_map, !combine_map, !map_map.
  apply map_ext. intros i. cbn. rewrite !N.lxor_spec, !N.land_spec.
  destruct (N.testbit x _), (N.testbit y _), (N.testbit z _); reflexivity.
Qed.
Lemma maj_bits w x y z : maj (bits w x) (bits w y) (bits w z) = bits w (Sha.maj x y z).
Proof. unfold maj, Sha.maj. rewrite !conj_bits, !xor_bits. f_equal. symmetry. rewrite <- N.lxor_assoc. reflexivity. Qed.

Lemma seq_cut n k : rev (seq 0 (n + k)) = rev (seq n k) ++ rev (seq 0 n).
Proof. rewrite seq_app, rev_app_distr. reflexivity. Qed.
Lemma skipn_app_l {A} n (l1 l2 : list A) : n = length l1 -> skipn n (l1 ++ l2) = l2.
Proof. intros ->. rewrite skipn_app, Nat.sub_diag, skipn_all. reflexivity. Qed.
Lemma firstn_app_l {A} n (l1 l2 : list A) : n = length l1 -> firstn n (l1 ++ l2) = l1.
Proof. intros ->. rewrite firstn_app, Nat.sub_diag, firstn_all. cbn. apply app_nil_r. Qed.
Lemma seq_shift_by n : forall k s, map (fun i => (i + n)%nat) (seq s k) = seq (s + n) k.
Proof. induction k as [|k IH]; intros s; cbn; [reflexivity|]. f_equal. exact (IH (S s)). Qed.
Lemma shr_bits w n x : (n <= w)%nat -> (x < 2 ^ N.of_nat w)%N -> shr n (bits w x) = bits w (N.shiftr x (N.of_nat n)).
Proof.
  intros Hn Hx. unfold shr. rewrite bits_length, !bits_test.
  replace (rev (seq 0 w)) with (rev (seq (w - n) n) ++ rev (seq 0 (w - n))) by (rewrite <- seq_cut; do 2 f_equal; lia).
  rewrite (map_app (fun i => N.testbit (N.shiftr x (N.of_nat n)) (N.of_nat i))). f_equal.
  - transitivity (map (fun _ : nat => false) (rev (seq (w - n) n))).
    + assert (E : n = length (rev (seq (w - n) n))) by (rewrite rev_length, seq_length; reflexivity).
      rewrite E at 1. generalize (rev (seq (w - n) n)). intros l. induction l as [|a l IH]; cbn; [reflexivity|congruence].
    + apply map_ext_in. intros i Hi. apply in_rev, in_seq in Hi. rewrite N.shiftr_spec by apply N.le_0_l. symmetry.
      destruct (N.eq_dec x 0) as [->|H0]; [apply N.bits_0|]. apply N.bits_above_log2.
      apply N.log2_lt_pow2 in Hx; [|lia]. lia.
  - replace (rev (seq (w - n) n) ++ rev (seq 0 (w - n))) with (rev (seq n (w - n)) ++ rev (seq 0 n)) by (rewrite <- !seq_cut; do 2 f_equal; lia).
    rewrite map_app. rewrite firstn_app_l by (rewrite map_length, rev_length, seq_length; reflexivity).
    replace (seq n (w - n)) with (map (fun i => (i + n)%nat) (seq 0 (w - n))) by (rewrite seq_shift_by; reflexivity).
    rewrite <- map_rev, map_map. apply map_ext. intros i. rewrite N.shiftr_spec by apply N.le_0_l. f_equal. lia.
Qed.
Lemma rotr_bits p w n x : Sha.wbits p = N.of_nat w -> Sha.wmod p = (2 ^ N.of_nat w)%N -> (0 < n < w)%nat -> (x < 2 ^ N.of_nat w)%N ->
  rotr n (bits w x) = bits w (Sha.rotr p (N.of_nat n) x).
Proof.
  intros Hb Hm Hn Hx. unfold rotr, Sha.rotr. rewrite bits_length, !bits_test, Hb, Hm.
  set (y := N.lor _ _).
  replace (rev (seq 0 w)) with (rev (seq n (w - n)) ++ rev (seq 0 n)) at 1 2 by (rewrite <- !seq_cut; do 2 f_equal; lia).
  replace (rev (seq 0 w)) with (rev (seq (w - n) n) ++ rev (seq 0 (w - n))) by (rewrite <- seq_cut; do 2 f_equal; lia).
  rewrite !map_app. rewrite skipn_app_l, firstn_app_l by (rewrite map_length, rev_length, seq_length; reflexivity). f_equal.
  - replace (seq (w - n) n) with (map (fun i => (i + (w - n))%nat) (seq 0 n)) by (rewrite seq_shift_by; reflexivity).
    rewrite <- map_rev, map_map. apply map_ext_in. intros i Hi. apply in_rev, in_seq in Hi. unfold y. rewrite N.lor_spec.
    rewrite N.mod_pow2_bits_low by lia. rewrite N.shiftl_spec_high' by lia. rewrite N.shiftr_spec by apply N.le_0_l.
    replace (N.of_nat (i + (w - n)) - (N.of_nat w - N.of_nat n))%N with (N.of_nat i) by lia.
    replace (N.testbit x (N.of_nat (i + (w - n)) + N.of_nat n)) with false; [reflexivity|]. symmetry.
    destruct (N.eq_dec x 0) as [->|H0]; [apply N.bits_0|]. apply N.bits_above_log2. apply N.log2_lt_pow2 in Hx; lia.
  - replace (seq n (w - n)) with (map (fun i => (i + n)%nat) (seq 0 (w - n))) by (rewrite seq_shift_by; reflexivity).
    rewrite <- map_rev, map_map. apply map_ext_in. intros i Hi. apply in_rev, in_seq in Hi. unfold y. rewrite N.lor_spec.
    rewrite N.mod_pow2_bits_low by lia. rewrite N.shiftl_spec_low by lia. rewrite N.shiftr_spec by apply N.le_0_l.
    rewrite orb_false_r. f_equal. lia.
Qed.

(** ** One variant *)
Definition rot_ok (w : nat) (r : nat * nat * nat) : Prop := let '(a, b, c) := r in (0 < a < w /\ 0 < b < w /\ 0 < c < w)%nat.
Definition rotN (r : nat * nat * nat) : N * N * N := let '(a, b, c) := r in (N.of_nat a, N.of_nat b, N.of_nat c).
Record fits (V : variant) (p : Sha.sha2) : Prop := {
  f_wbits : Sha.wbits p = N.of_nat (v_w V);
  f_wmod : Sha.wmod p = (2 ^ N.of_nat (v_w V))%N;
  f_wbytes : v_w V = (8 * Sha.wbytes p)%nat;
  f_pos : (0 < Sha.wbytes p)%nat;
  f_blk : Sha.blk p = (16 * Sha.wbytes p)%nat;
  f_len : Sha.lenbytes p = (2 * Sha.wbytes p)%nat;
  f_bs0 : Sha.bs0 p = rotN (v_Sigma0 V); f_bs1 : Sha.bs1 p = rotN (v_Sigma1 V);
  f_ss0 : Sha.ss0 p = rotN (v_sigma0 V); f_ss1 : Sha.ss1 p = rotN (v_sigma1 V);
  f_r1 : rot_ok (v_w V) (v_Sigma0 V); f_r2 : rot_ok (v_w V) (v_Sigma1 V);
  f_r3 : rot_ok (v_w V) (v_sigma0 V); f_r4 : rot_ok (v_w V) (v_sigma1 V);
  f_rounds : length (Sha.kconst p) = v_rounds V; f_16 : (16 <= v_rounds V)%nat;
  f_init : length (Sha.hinit p) = 8%nat;
  f_small : Forall (fun x => x < 2 ^ N.of_nat (v_w V))%N (Sha.hinit p) }.

Section Fits.
Context (V : variant) (p : Sha.sha2) (F : fits V p).
Let w := v_w V.
Let small (x : N) : Prop := (x < 2 ^ N.of_nat w)%N.

Lemma Sigma_bits r x : rot_ok w r -> small x -> Sigma r (bits w x) = bits w (Sha.bigs p (rotN r) x).
Proof.
  destruct r as [[a b] c]. intros (H1 & H2 & H3) Hx. cbn. rewrite !(rotr_bits p) by (auto; apply F). rewrite !xor_bits, N.lxor_assoc. reflexivity.
Qed.
Lemma sigma_bits r x : rot_ok w r -> small x -> sigma r (bits w x) = bits w (Sha.smalls p (rotN r) x).
Proof.
  destruct r as [[a b] c]. intros (H1 & H2 & H3) Hx. cbn. rewrite !(rotr_bits p) by (auto; apply F). rewrite shr_bits by (auto; lia).
  rewrite !xor_bits, N.lxor_assoc. reflexivity.
Qed.
Lemma mod_small_w x : small (x mod Sha.wmod p).
Proof. unfold small. rewrite (f_wmod _ _ F). apply N.mod_lt. apply N.pow_nonzero. lia. Qed.
Lemma bits_wmod x : bits w (x mod Sha.wmod p) = bits w x.
Proof. rewrite (f_wmod _ _ F). apply bits_mod. Qed.
Lemma add_bits l : add w (map (bits w) l) = bits w (fold_left N.add l 0%N).
Proof.
  unfold add. rewrite map_map. rewrite <- bits_mod. rewrite <- (bits_mod w (fold_left N.add l 0%N)). f_equal.
  set (m := (2 ^ N.of_nat w)%N). assert (Hm : m <> 0%N) by (apply N.pow_nonzero; lia).
  assert (X : forall l a b, (a mod m = b mod m)%N -> (fold_left N.add (map (fun x => value (bits w x)) l) a mod m = fold_left N.add l b mod m)%N).
  { clear l. induction l as [|x l IH]; intros a b H; cbn [map fold_left]; [exact H|]. apply IH.
    rewrite value_bits. fold m. rewrite N.add_mod_idemp_r by exact Hm. rewrite <- (N.add_mod_idemp_l a), <- (N.add_mod_idemp_l b) by exact Hm. rewrite H. reflexivity. }
  apply X. reflexivity.
Qed.

Definition vars_of (st : list N) : vars :=
  let g i := bits w (nth i st 0%N) in (g 0, g 1, g 2, g 3, g 4, g 5, g 6, g 7)%nat.
Definition state (st : list N) : Prop := length st = 8%nat /\ Forall small st.

Lemma state_cases st : state st -> exists a b c d e f g h, st = [a; b; c; d; e; f; g; h] /\
  small a /\ small b /\ small c /\ small d /\ small e /\ small f /\ small g /\ small h.
Proof.
  intros [HL HF]. do 8 (destruct st as [|? st]; [discriminate HL|]). destruct st; [|discriminate HL].
  repeat match goal with H : Forall _ (_ :: _) |- _ => inversion H; clear H; subst end. do 8 eexists. split; [reflexivity|]. auto 10.
Qed.
Lemma round_vars st k x : state st -> one_round V (bits w k) (bits w x) (vars_of st) = vars_of (Sha.round p st (k, x)) /\ state (Sha.round p st (k, x)).
Proof.
  intros HS. destruct (state_cases st HS) as (a & b & c & d & e & f & g & h & -> & Ha & Hb & Hc & Hd & He & Hf & Hg & Hh).
  unfold vars_of, one_round, Sha.round. cbn [nth fst snd]. fold w. split.
  - rewrite (f_bs0 _ _ F), (f_bs1 _ _ F). rewrite !Sigma_bits by (auto; apply F). rewrite ch_bits, maj_bits.
    set (S1 := Sha.bigs p (rotN (v_Sigma1 V)) e). set (S0 := Sha.bigs p (rotN (v_Sigma0 V)) a).
    set (CH := Sha.ch' e f g). set (MA := Sha.maj a b c).
    change (add w [bits w h; bits w S1; bits w CH; bits w k; bits w x]) with (add w (map (bits w) [h; S1; CH; k; x])).
    change (add w [bits w S0; bits w MA]) with (add w (map (bits w) [S0; MA])). rewrite !add_bits. cbn [fold_left]. rewrite !N.add_0_l.
    set (T1 := (h + S1 + CH + k + x)%N). set (T2 := (S0 + MA)%N).
    change (add w [bits w T1; bits w T2]) with (add w (map (bits w) [T1; T2])). change (add w [bits w d; bits w T1]) with (add w (map (bits w) [d; T1])).
    rewrite !add_bits. cbn [fold_left]. rewrite !N.add_0_l.
    assert (Hm : Sha.wmod p <> 0%N) by (rewrite (f_wmod _ _ F); apply N.pow_nonzero; lia).
    rewrite <- (N.add_mod T1 T2), (N.add_mod_idemp_r d T1), !bits_wmod by exact Hm. reflexivity.
  - split; [reflexivity|]. repeat constructor; auto; apply mod_small_w.
Qed.
Lemma after_vars ks ws st : length ks = length ws -> state st -> forall t, (t <= length ks)%nat ->
  after V (map (bits w) ks) (map (bits w) ws) (vars_of st) t = vars_of (fold_left (Sha.round p) (firstn t (combine ks ws)) st) /\
  state (fold_left (Sha.round p) (firstn t (combine ks ws)) st).
Proof.
  intros HL HS. induction t as [|t IH]; intros Ht; [split; [reflexivity|exact HS]|]. destruct IH as [IH1 IH2]; [lia|].
  assert (E : firstn (S t) (combine ks ws) = firstn t (combine ks ws) ++ [(nth t ks 0%N, nth t ws 0%N)]).
  { assert (HC : (t < length (combine ks ws))%nat) by (rewrite combine_length; lia).
    rewrite <- (firstn_skipn t (combine ks ws)) at 1. rewrite firstn_app. rewrite firstn_length, Nat.min_l by lia.
    replace (S t - t)%nat with 1%nat by lia. rewrite firstn_firstn, Nat.min_r by lia. f_equal.
    rewrite <- combine_nth by exact HL. remember (combine ks ws) as l. clear -HC. revert t HC.
    induction l as [|x l IH]; intros t H; [cbn in H; lia|]. destruct t; [reflexivity|]. cbn. apply IH. cbn in H. lia. }
  rewrite E, fold_left_app. cbn [fold_left after]. rewrite IH1.
  assert (B : forall l, (t < length l)%nat -> nth t (map (bits w) l) [] = bits w (nth t l 0%N)).
  { intros l H. rewrite (nth_indep _ [] (bits w 0%N)) by (rewrite map_length; exact H). apply map_nth. }
  rewrite !B by lia. apply round_vars. exact IH2.
Qed.

(** The message schedule. *)
Lemma extend_app n : forall l, exists e, Sha.extend p n l = e ++ l /\ length e = n.
Proof.
  induction n as [|n IH]; intros l; [exists []; auto|]. cbn [Sha.extend].
  match goal with |- context [Sha.extend p n (?x :: l)] => destruct (IH (x :: l)) as (e & -> & HL); exists (e ++ [x]) end.
  rewrite <- app_assoc, app_length. cbn. split; [reflexivity|lia].
Qed.
Definition next (a b c d : N) : N :=
  ((Sha.smalls p (Sha.ss1 p) a + b + Sha.smalls p (Sha.ss0 p) c + d) mod Sha.wmod p)%N.
Lemma extend_nth n : forall l i, (i < n)%nat ->
  nth i (Sha.extend p n l) 0%N = next (nth (i + 2) (Sha.extend p n l) 0%N) (nth (i + 7) (Sha.extend p n l) 0%N)
    (nth (i + 15) (Sha.extend p n l) 0%N) (nth (i + 16) (Sha.extend p n l) 0%N).
Proof.
  induction n as [|n IH]; intros l i Hi; [lia|]. cbn [Sha.extend].
  match goal with |- context [Sha.extend p n (?x :: l)] => set (y := x) end.
  destruct (Nat.eq_dec i n) as [->|Hne]; [|apply IH; lia].
  destruct (extend_app n (y :: l)) as (e & -> & HL).
  assert (X : forall k, nth (n + k) (e ++ y :: l) 0%N = nth k (y :: l) 0%N) by (intros k; rewrite app_nth2 by lia; f_equal; lia).
  rewrite !X. replace n with (n + 0)%nat by lia. rewrite X. cbn [nth]. reflexivity.
Qed.
Lemma extend_small n : forall l, Forall small l -> Forall small (Sha.extend p n l).
Proof. induction n as [|n IH]; intros l H; cbn [Sha.extend]; [exact H|]. apply IH. constructor; [apply mod_small_w|exact H]. Qed.

Definition scheduled (ms : list N) : list N := rev (Sha.extend p (length (Sha.kconst p) - 16) (rev ms)).
Lemma scheduled_length ms : length ms = 16%nat -> length (scheduled ms) = v_rounds V.
Proof.
  intros H. unfold scheduled. rewrite rev_length. destruct (extend_app (length (Sha.kconst p) - 16) (rev ms)) as (e & -> & HL).
  rewrite app_length, rev_length, HL, H, (f_rounds _ _ F). pose proof (f_16 _ _ F). lia.
Qed.
Lemma scheduled_spec ms : length ms = 16%nat -> Forall small ms -> schedule V (map (bits w) ms) (map (bits w) (scheduled ms)).
Proof.
  intros HL HF. pose proof (scheduled_length ms HL) as HS. pose proof (f_16 _ _ F) as H16. split; [rewrite map_length; exact HS|].
  assert (B : forall t l, (t < length l)%nat -> nth t (map (bits w) l) [] = bits w (nth t l 0%N)).
  { intros t l H. rewrite (nth_indep _ [] (bits w 0%N)) by (rewrite map_length; exact H). apply map_nth. }
  split; intros t Ht.
  - rewrite !B by lia. f_equal. unfold scheduled. destruct (extend_app (length (Sha.kconst p) - 16) (rev ms)) as (e & -> & He).
    rewrite rev_app_distr, rev_involutive, app_nth1 by lia. reflexivity.
  - assert (HE : length (Sha.extend p (length (Sha.kconst p) - 16) (rev ms)) = v_rounds V) by (rewrite <- rev_length; exact HS).
    assert (R : forall k, (k < v_rounds V)%nat -> nth k (scheduled ms) 0%N = nth (v_rounds V - S k) (Sha.extend p (length (Sha.kconst p) - 16) (rev ms)) 0%N).
    { intros k Hk. unfold scheduled. rewrite rev_nth by lia. rewrite HE. reflexivity. }
    assert (SM : forall k, (k < v_rounds V)%nat -> small (nth k (scheduled ms) 0%N)).
    { intros k Hk. assert (X : Forall small (scheduled ms)) by (apply Forall_rev, extend_small, Forall_rev; exact HF).
      rewrite Forall_forall in X. apply X, nth_In. lia. }
    rewrite !B by lia. rewrite !sigma_bits by (try apply F; apply SM; lia).
    rewrite <- (f_ss1 _ _ F), <- (f_ss0 _ _ F).
    set (A1 := Sha.smalls p (Sha.ss1 p) _). set (A2 := Sha.smalls p (Sha.ss0 p) _).
    change (add (v_w V) [bits w A1; bits w (nth (t - 7) (scheduled ms) 0%N); bits w A2; bits w (nth (t - 16) (scheduled ms) 0%N)])
      with (add w (map (bits w) [A1; nth (t - 7) (scheduled ms) 0%N; A2; nth (t - 16) (scheduled ms) 0%N])).
    rewrite add_bits. cbn [fold_left]. rewrite N.add_0_l. etransitivity; [|apply bits_wmod]. f_equal. unfold A1, A2.
    rewrite !R by lia. rewrite extend_nth by (rewrite (f_rounds _ _ F); lia). unfold next.
    replace (v_rounds V - S t + 2)%nat with (v_rounds V - S (t - 2))%nat by lia. replace (v_rounds V - S t + 7)%nat with (v_rounds V - S (t - 7))%nat by lia.
    replace (v_rounds V - S t + 15)%nat with (v_rounds V - S (t - 15))%nat by lia. replace (v_rounds V - S t + 16)%nat with (v_rounds V - S (t - 16))%nat by lia.
    reflexivity.
Qed.
Lemma schedule_unique M W W' : schedule V M W -> schedule V M W' -> W = W'.
Proof.
  intros (L1 & A1 & B1) (L2 & A2 & B2). apply (nth_ext _ _ [] []); [exact (eq_trans L1 (eq_sym L2))|].
  assert (X : forall n, n < v_rounds V -> nth n W [] = nth n W' []); [|intros n Hn; apply X; rewrite <- L1; exact Hn].
  intros n. induction n as [n IH] using (well_founded_induction Nat.lt_wf_0). intros Hn.
  destruct (Nat.lt_ge_cases n 16) as [H|H]; [rewrite A1, A2 by exact H; reflexivity|].
  rewrite B1, B2 by lia. rewrite !IH by lia. reflexivity.
Qed.

(** Bytes and words. *)
Definition bits_of (l : list ascii) : list bool := flat_map byte_bits l.
Lemma byte_length a : length (byte_bits a) = 8%nat.
Proof. destruct a; reflexivity. Qed.
Lemma bits_of_length l : length (bits_of l) = (8 * length l)%nat.
Proof. induction l as [|a l IH]; [reflexivity|]. unfold bits_of in *. cbn [flat_map length]. rewrite app_length, byte_length, IH. lia. Qed.
Lemma byte_value a : value (byte_bits a) = N_of_ascii a.
Proof. destruct a as [[] [] [] [] [] [] [] []]; reflexivity. Qed.
Lemma be_words_chunk n c : forall acc k rest, length c = S k ->
  Sha.be_words n acc k (c ++ rest) = (acc * 2 ^ N.of_nat (8 * length c) + value (bits_of c))%N :: Sha.be_words n 0 n rest.
Proof.
  induction c as [|a c IH]; intros acc k rest H; [discriminate H|]. injection H as H. cbn [app Sha.be_words].
  assert (E : (acc * 2 ^ N.of_nat (8 * length (a :: c)) + value (bits_of (a :: c)) =
               (acc * 256 + N_of_ascii a) * 2 ^ N.of_nat (8 * length c) + value (bits_of c))%N).
  { unfold bits_of. cbn [flat_map]. rewrite value_app, byte_value. fold (bits_of c). rewrite bits_of_length.
    replace (N.of_nat (8 * length (a :: c))) with (8 + N.of_nat (8 * length c))%N by (cbn [length]; lia). rewrite N.pow_add_r. change (2 ^ 8)%N with 256%N. lia. }
  rewrite E. destruct k as [|k].
  - destruct c; [|discriminate H]. cbn. rewrite N.mul_1_r, N.add_0_r. reflexivity.
  - rewrite (IH _ _ _ H). reflexivity.
Qed.
Lemma app_eq_length {A} (a b c d : list A) : length a = length c -> a ++ b = c ++ d -> a = c /\ b = d.
Proof.
  revert c. induction a as [|x a IH]; intros [|y c] H E; try discriminate H; [auto|]. cbn in *. injection E as -> E. injection H as H.
  destruct (IH c H E) as [-> ->]. auto.
Qed.
Lemma be_words_value M : Forall (fun x => length x = w) M -> forall b, bits_of b = concat M ->
  Sha.be_words (pred (Sha.wbytes p)) 0 (pred (Sha.wbytes p)) b = map value M.
Proof.
  pose proof (f_wbytes _ _ F) as HW. pose proof (f_pos _ _ F) as HP. unfold w in *.
  induction 1 as [|x M Hx HM IH]; intros b Hb.
  { destruct b as [|[] b]; [reflexivity|discriminate Hb]. }
  cbn [concat map] in *. assert (HL : (8 * length b = length x + length (concat M))%nat) by (rewrite <- bits_of_length, Hb, app_length; reflexivity).
  rewrite <- (firstn_skipn (Sha.wbytes p) b) in Hb |- *. unfold bits_of in Hb. rewrite flat_map_app in Hb. fold (bits_of (firstn (Sha.wbytes p) b)) in Hb. fold (bits_of (skipn (Sha.wbytes p) b)) in Hb.
  assert (L1 : length (firstn (Sha.wbytes p) b) = Sha.wbytes p) by (apply firstn_length_le; lia).
  apply app_eq_length in Hb; [|rewrite bits_of_length, L1, Hx, HW; reflexivity]. destruct Hb as [E1 E2].
  rewrite be_words_chunk by (rewrite L1; lia). rewrite E1, N.mul_0_l, N.add_0_l. f_equal. apply IH. exact E2.
Qed.

(** Blocks. *)
Lemma map_bits_value M : Forall (fun x => length x = w) M -> map (bits w) (map value M) = M /\ Forall small (map value M).
Proof.
  induction 1 as [|x M Hx HM IH]; [split; [reflexivity|constructor]|]. destruct IH as [IH1 IH2]. cbn [map]. rewrite IH1. split.
  - f_equal. rewrite <- Hx. apply bits_value_id.
  - constructor; [|exact IH2]. unfold small. rewrite <- Hx. apply value_lt.
Qed.
Lemma compress_vars st M b W : state st -> length M = 16%nat -> Forall (fun x => length x = w) M -> bits_of b = concat M -> schedule V M W ->
  sum V (after V (map (bits w) (Sha.kconst p)) W (vars_of st) (v_rounds V)) (vars_of st) = vars_of (Sha.compress p st b) /\ state (Sha.compress p st b).
Proof.
  intros HS HL HM Hb HW. destruct (map_bits_value M HM) as [E1 E2]. unfold Sha.compress. rewrite (be_words_value M HM b Hb).
  fold (scheduled (map value M)). assert (L16 : length (map value M) = 16%nat) by (rewrite map_length; exact HL).
  pose proof (scheduled_spec _ L16 E2) as SP. rewrite E1 in SP. rewrite (schedule_unique _ _ _ HW SP).
  pose proof (scheduled_length _ L16) as SL.
  destruct (after_vars (Sha.kconst p) (scheduled (map value M)) st) with (t := v_rounds V) as [A1 A2];
    [rewrite SL; apply F|exact HS|rewrite (f_rounds _ _ F); lia|].
  rewrite A1. rewrite firstn_all2 in A1, A2 |- * by (rewrite combine_length, SL, (f_rounds _ _ F); lia).
  remember (fold_left (Sha.round p) (combine (Sha.kconst p) (scheduled (map value M))) st) as st' eqn:E. clear E A1.
  destruct (state_cases st HS) as (a & b' & c & d & e & f & g & h & -> & _).
  destruct (state_cases st' A2) as (a' & b'' & c' & d' & e' & f' & g' & h' & -> & _).
  unfold vars_of, sum. cbn [nth combine map fst snd]. fold w.
  assert (X : forall x y, add w [bits w x; bits w y] = bits w ((y + x) mod Sha.wmod p)%N).
  { intros x y. change ([bits w x; bits w y]) with (map (bits w) [x; y]). rewrite add_bits, bits_wmod. cbn [fold_left]. f_equal. lia. }
  rewrite !X. split; [reflexivity|]. split; [reflexivity|]. repeat constructor; apply mod_small_w.
Qed.
Definition block_ok (M : list word) : Prop := length M = 16%nat /\ Forall (fun x => length x = w) M.
Lemma concat_length_w M : block_ok M -> length (concat M) = (16 * w)%nat.
Proof.
  intros [HL HF]. rewrite <- HL. clear HL. induction HF as [|x M Hx HF IH]; [reflexivity|]. cbn [concat length]. rewrite app_length, IH, Hx. lia.
Qed.
Lemma blocks_vars Ms : Forall block_ok Ms -> forall l st fuel, bits_of l = concat (map (@concat bool) Ms) -> state st -> (length Ms <= fuel)%nat ->
  (forall H', hashed V (map (bits w) (Sha.kconst p)) (vars_of st) Ms H' <-> H' = vars_of (Sha.blocks p fuel st l)) /\ state (Sha.blocks p fuel st l).
Proof.
  induction 1 as [|M Ms HM HMs IH]; intros l st fuel Hl HS Hf.
  - assert (l = []) as -> by (destruct l as [|[] l]; [reflexivity|discriminate Hl]). assert (E : Sha.blocks p fuel st [] = st) by (destruct fuel; reflexivity).
    rewrite E. split; [|exact HS]. intros H'. split; [intros H; inversion H; reflexivity|intros ->; constructor].
  - cbn [map concat] in Hl. pose proof (concat_length_w M HM) as HC. pose proof (f_wbytes _ _ F) as HW. pose proof (f_blk _ _ F) as HB.
    assert (HL : (8 * length l = 16 * w + length (concat (map (@concat bool) Ms)))%nat) by (rewrite <- bits_of_length, Hl, app_length, HC; reflexivity).
    pose proof (f_pos _ _ F) as HP. fold w in HW.
    assert (HE : bits_of (firstn (Sha.blk p) l) = concat M /\ bits_of (skipn (Sha.blk p) l) = concat (map (@concat bool) Ms)).
    { apply app_eq_length; [rewrite bits_of_length, firstn_length_le by lia; rewrite HC, HB; lia|].
      unfold bits_of. rewrite <- flat_map_app, firstn_skipn. exact Hl. }
    destruct HE as [E1 E2]. destruct HM as [H16 HF]. destruct fuel as [|fuel]; [cbn in Hf; lia|]. cbn [Sha.blocks].
    destruct l as [|a l]; [cbn in HL; lia|]. set (b := firstn (Sha.blk p) (a :: l)) in *.
    assert (HX : exists W, schedule V M W).
    { exists (map (bits w) (scheduled (map value M))). destruct (map_bits_value M HF) as [Q1 Q2]. rewrite <- Q1 at 1. apply scheduled_spec; [rewrite map_length; exact H16|exact Q2]. }
    destruct HX as [W HX]. destruct (compress_vars st M b W HS H16 HF E1 HX) as [C1 C2].
    destruct (IH (skipn (Sha.blk p) (a :: l)) (Sha.compress p st b) fuel E2 C2) as [I1 I2]; [cbn in Hf; lia|]. split; [|exact I2].
    intros H'. rewrite <- I1, <- C1. split.
    + intros H. inversion H as [|H0 M0 W0 Ms0 H0' HS0 HR0]; subst. rewrite (schedule_unique _ _ _ HX HS0). exact HR0.
    + intros H. eapply ha_cons; [exact HX|exact H].
Qed.

(** Padding and output. *)
Lemma be_bytes_bits k : forall x, bits_of (Sha.be_bytes k x) = bits (8 * k) x.
Proof.
  induction k as [|k IH]; intros x; [reflexivity|]. cbn [Sha.be_bytes]. unfold bits_of. rewrite flat_map_app. fold (bits_of (Sha.be_bytes k (x / 256)%N)). rewrite IH.
  replace (8 * S k)%nat with (S (S (S (S (S (S (S (S (8 * k)))))))))%nat by lia. cbn [bits flat_map]. rewrite !N.div_div by lia. cbn [N.mul Pos.mul].
  change (2 * (2 * (2 * (2 * (2 * (2 * (2 * 2)))))))%N with 256%N. rewrite <- !app_assoc, app_nil_r. cbn [app]. f_equal.
  rewrite <- (bits_value_id (byte_bits _)), byte_value, byte_length, N_ascii_embedding by (apply N.mod_lt; lia).
  change 256%N with (2 ^ N.of_nat 8)%N. rewrite bits_mod. cbn [bits app]. rewrite !N.div_div by lia. reflexivity.
Qed.
Lemma zeros_bits z : bits_of (repeat (ascii_of_N 0) z) = repeat false (8 * z).
Proof.
  induction z as [|z IH]; [reflexivity|]. replace (8 * S z)%nat with (8 + 8 * z)%nat by lia. rewrite repeat_app, <- IH. reflexivity.
Qed.
Lemma padded_unique m o o' : padded V m o -> padded V m o' -> o = o'.
Proof.
  intros (k & -> & H1 & H2) (k' & -> & H1' & H2'). rewrite !app_length, repeat_length, bits_length in H1, H1'. cbn [length] in *. fold w in H1, H1', H2, H2'.
  assert (k = k') as ->; [|reflexivity]. assert (Hw : (16 * w <> 0)%nat) by lia.
  apply Nat.mod_divides in H1; [|exact Hw]. apply Nat.mod_divides in H1'; [|exact Hw]. destruct H1 as [q H1], H1' as [q' H1'].
  assert (q = q'); [|subst; lia]. destruct (Nat.lt_trichotomy q q') as [H|[H|H]]; [|exact H|]; exfalso; nia.
Qed.
Lemma pad_padded s : padded V (bits_of s) (bits_of (Sha.pad p s)) /\ (length (Sha.pad p s) mod Sha.blk p = 0)%nat.
Proof.
  pose proof (f_wbytes _ _ F) as HW. pose proof (f_blk _ _ F) as HB. pose proof (f_len _ _ F) as HLn. pose proof (f_pos _ _ F) as HP. fold w in HW.
  unfold Sha.pad. set (n := length s). set (r := ((n + 1 + Sha.lenbytes p) mod Sha.blk p)%nat). set (z := ((Sha.blk p - r) mod Sha.blk p)%nat).
  assert (Hb : (Sha.blk p <> 0)%nat) by lia.
  assert (Hr : (r < Sha.blk p)%nat) by (apply Nat.mod_upper_bound; exact Hb). assert (Hz : (z < Sha.blk p)%nat) by (apply Nat.mod_upper_bound; exact Hb).
  assert (HD : exists q, (n + 1 + z + Sha.lenbytes p = Sha.blk p * q)%nat).
  { pose proof (Nat.div_mod (n + 1 + Sha.lenbytes p) (Sha.blk p) Hb) as D. fold r in D. unfold z.
    destruct (Nat.eq_dec r 0) as [E|E].
    - rewrite E, Nat.sub_0_r, Nat.mod_same by exact Hb. exists ((n + 1 + Sha.lenbytes p) / Sha.blk p)%nat. lia.
    - rewrite Nat.mod_small by lia. exists (S ((n + 1 + Sha.lenbytes p) / Sha.blk p)). lia. }
  destruct HD as [q HD]. split.
  - exists (7 + 8 * z)%nat. fold w. split; [|split].
    + unfold bits_of. rewrite !flat_map_app. fold (bits_of s). fold (bits_of (repeat (ascii_of_N 0) z)). fold (bits_of (Sha.be_bytes (Sha.lenbytes p) (8 * N.of_nat n))).
      rewrite zeros_bits, be_bytes_bits. rewrite (repeat_app false 7), bits_of_length. cbn [flat_map app]. 
      replace (8 * Sha.lenbytes p)%nat with (2 * w)%nat by lia. replace (8 * N.of_nat n)%N with (N.of_nat (8 * length s)) by lia. reflexivity.
    + rewrite bits_of_length, !app_length, repeat_length, ShaFacts.be_bytes_length. cbn [length]. fold n.
      apply Nat.mod_divides; [lia|]. exists q. rewrite HW. lia.
    + lia.
  - rewrite !app_length, repeat_length, ShaFacts.be_bytes_length. cbn [length]. fold n. apply Nat.mod_divides; [exact Hb|]. exists q. lia.
Qed.
Lemma chunks {A} n k : forall l : list A, length l = (n * k)%nat -> exists cs, l = concat cs /\ length cs = k /\ Forall (fun c => length c = n) cs.
Proof.
  induction k as [|k IH]; intros l H; [exists []; destruct l; [auto|cbn in H; lia]|].
  destruct (IH (skipn n l)) as (cs & E & L & HF); [rewrite skipn_length; lia|].
  exists (firstn n l :: cs). cbn. rewrite <- E, firstn_skipn, L. split; [reflexivity|]. split; [reflexivity|]. constructor; [apply firstn_length_le; lia|exact HF].
Qed.
Lemma parse_exists out : (length out mod (16 * w) = 0)%nat -> exists Ms, parsed V out Ms.
Proof.
  pose proof (f_wbytes _ _ F) as HW. pose proof (f_pos _ _ F) as HP. fold w in HW. intros H. apply Nat.mod_divides in H; [|lia]. destruct H as [k H].
  destruct (chunks _ _ _ H) as (cs & E & _ & HF). assert (X : exists Ms, cs = map (@concat bool) Ms /\ Forall block_ok Ms).
  { clear E. induction HF as [|c cs Hc HF (Ms & -> & IH)]; [exists []; auto|]. destruct (chunks w 16 c) as (M & -> & L & HM); [lia|].
    exists (M :: Ms). split; [reflexivity|]. constructor; [split; assumption|exact IH]. }
  destruct X as (Ms & -> & HX). exists Ms. split; [exact E|exact HX].
Qed.
Lemma parsed_count out Ms : parsed V out Ms -> (length out = 16 * w * length Ms)%nat.
Proof.
  intros [-> HF]. induction HF as [|M Ms HM HF IH]; [cbn; lia|]. cbn [map concat length]. rewrite app_length, IH, concat_length_w by exact HM. lia.
Qed.
Lemma concatenated_bits st : state st -> concatenated (vars_of st) = bits_of (flat_map (Sha.be_bytes (Sha.wbytes p)) st).
Proof.
  intros HS. destruct (state_cases st HS) as (a & b & c & d & e & f & g & h & -> & _). unfold concatenated, vars_of, bits_of. cbn [nth flat_map].
  rewrite !flat_map_app. fold (bits_of (Sha.be_bytes (Sha.wbytes p) a)). cbn [flat_map].
  assert (X : forall x, flat_map byte_bits (Sha.be_bytes (Sha.wbytes p) x) = bits w x).
  { intros x. fold (bits_of (Sha.be_bytes (Sha.wbytes p) x)). rewrite be_bytes_bits. unfold w. rewrite (f_wbytes _ _ F). reflexivity. }
  unfold bits_of. rewrite !X, app_nil_r. reflexivity.
Qed.
Lemma digest_hash K a b c e f g h i m d :
  K = map (bits w) (Sha.kconst p) -> (a, b, c, e, f, g, h, i) = vars_of (Sha.hinit p) ->
  (exists out blocks H, padded V (bits_of m) out /\ parsed V out blocks /\ hashed V K (a, b, c, e, f, g, h, i) blocks H /\ d = firstn (v_digest V) (concatenated H)) <->
  d = firstn (v_digest V) (bits_of (list_ascii_of_string (Sha.sha2_hash p (string_of_list_ascii m)))).
Proof.
  intros -> ->. unfold Sha.sha2_hash. rewrite !list_ascii_of_string_of_list_ascii.
  set (st := Sha.blocks p _ _ _). destruct (pad_padded m) as [HP HPm].
  assert (HI : state (Sha.hinit p)) by (split; apply F).
  assert (HB : forall Ms, parsed V (bits_of (Sha.pad p m)) Ms ->
    (forall H', hashed V (map (bits w) (Sha.kconst p)) (vars_of (Sha.hinit p)) Ms H' <-> H' = vars_of st) /\ state st).
  { intros Ms HM. pose proof (parsed_count _ _ HM) as HC. rewrite bits_of_length in HC. destruct HM as [E HF].
    apply blocks_vars; [exact HF|exact E|exact HI|]. pose proof (f_wbytes _ _ F) as HW. fold w in HW. pose proof (f_pos _ _ F) as HP0.
    assert (length (Sha.pad p m) = Sha.blk p * length Ms)%nat as -> by (rewrite (f_blk _ _ F); lia).
    rewrite Nat.mul_comm, Nat.div_mul; [lia|rewrite (f_blk _ _ F); lia]. }
  destruct (parse_exists (bits_of (Sha.pad p m))) as (Ms & HMs). { destruct HP as (k & E & HL & _). exact HL. }
  split.
  - intros (out & blocks & H & H1 & H2 & H3 & ->). rewrite (padded_unique _ _ _ H1 HP) in H2. destruct (HB _ H2) as [X Y]. apply X in H3. subst H.
    rewrite concatenated_bits by exact Y. reflexivity.
  - intros ->. exists (bits_of (Sha.pad p m)), Ms, (vars_of st). destruct (HB _ HMs) as [X Y]. split; [exact HP|]. split; [exact HMs|]. split; [apply X; reflexivity|].
    rewrite concatenated_bits by exact Y. reflexivity.
Qed.
End Fits.

(** ** The constants *)
Definition below (n : N) : list N := map N.of_nat (seq 0 (N.to_nat n)).
Lemma below_in n x : In x (below n) <-> (x < n)%N.
Proof.
  unfold below. rewrite in_map_iff. split.
  - intros (i & <- & H). apply in_seq in H. lia.
  - intros H. exists (N.to_nat x). split; [apply Nnat.N2Nat.id|]. apply in_seq. lia.
Qed.
Fixpoint undivided (n : N) (l : list N) : bool :=
  match l with [] => true | d :: l => if ((1 <? d) && (n mod d =? 0))%N then false else undivided n l end.
Lemma undivided_iff n l : undivided n l = true <-> forall d, In d l -> (1 < d)%N -> (n mod d <> 0)%N.
Proof.
  induction l as [|x l IH]; cbn [undivided In]; [split; [intros _ d []|reflexivity]|]. destruct ((1 <? x) && (n mod x =? 0))%N eqn:E.
  - apply andb_true_iff in E. destruct E as [E1 E2]. apply N.ltb_lt in E1. apply N.eqb_eq in E2. split; [discriminate|]. intros H. contradiction (H x (or_introl eq_refl) E1 E2).
  - rewrite IH. split; intros H d; [intros [<-|Hd] H1 H2|intros Hd; apply H; auto].
    + apply N.ltb_lt in H1. apply N.eqb_eq in H2. rewrite H1, H2 in E. discriminate E.
    + exact (H d Hd H1 H2).
Qed.
Definition primeb (n : N) : bool := ((1 <? n)%N && undivided n (below n))%bool.
Lemma primeb_iff n : primeb n = true <-> prime n.
Proof.
  unfold primeb, prime. rewrite andb_true_iff, N.ltb_lt, undivided_iff. split; intros [H1 H2]; (split; [exact H1|]).
  - intros d [Hd1 Hd2]. apply H2; [apply below_in; exact Hd2|exact Hd1].
  - intros d Hd Hd1. apply below_in in Hd. apply H2. lia.
Qed.
Lemma NoDup_below n : NoDup (below n).
Proof. unfold below. apply FinFun.Injective_map_NoDup; [|apply seq_NoDup]. intros x y. apply Nnat.Nat2N.inj. Qed.
Definition primes : list N := Eval vm_compute in filter primeb (below 410).
Lemma primes_eq : primes = filter primeb (below 410).
Proof. vm_compute. reflexivity. Qed.
Lemma primes_in q : In q primes <-> prime q /\ (q < 410)%N.
Proof. rewrite primes_eq, filter_In, below_in, primeb_iff. tauto. Qed.
Lemma nth_prime_intro t p : existsb (N.eqb p) primes = true -> length (filter (fun q => q <? p)%N primes) = t -> nth_prime t p.
Proof.
  intros H1 H2. apply existsb_exists in H1. destruct H1 as (x & H1 & E). apply N.eqb_eq in E. subst x. apply primes_in in H1. destruct H1 as [HP H4].
  split; [exact HP|]. exists (filter (fun q => q <? p)%N primes). split; [apply NoDup_filter; rewrite primes_eq; apply NoDup_filter, NoDup_below|]. split; [exact H2|].
  intros q. rewrite filter_In, primes_in, N.ltb_lt. split; [tauto|]. intros [H5 H6]. split; [split; [exact H5|lia]|exact H6].
Qed.
Lemma nth_prime_unique t p p' : nth_prime t p -> nth_prime t p' -> p = p'.
Proof.
  assert (X : forall p p', (p < p')%N -> nth_prime t p -> nth_prime t p' -> False).
  { clear. intros p p' Hlt (Hp & l & ND & L & HI) (_ & l' & ND' & L' & HI').
    assert (length (p :: l) <= length l')%nat; [|cbn in *; lia]. apply NoDup_incl_length.
    - constructor; [|exact ND]. intros H. apply HI in H. lia.
    - intros q [<-|H]; apply HI'; [auto|]. apply HI in H. destruct H. split; [assumption|lia]. }
  intros H H'. destruct (N.lt_trichotomy p p') as [HL|[HL|HL]]; [|exact HL|]; exfalso; eauto.
Qed.
Lemma root_unique n w p q q' : (0 < n)%N -> root n w p q -> root n w p q' -> q = q'.
Proof.
  intros Hn [H1 H2] [H3 H4]. assert (A : (q < q' + 1)%N) by (apply (N.pow_lt_mono_l_iff _ _ n); lia).
  assert (B : (q' < q + 1)%N) by (apply (N.pow_lt_mono_l_iff _ _ n); lia). lia.
Qed.
(** Check by computation that [k] is the fraction of the root of the [t]-th prime [p]. *)
Definition checked (n w : N) (t : nat) (p k : N) : bool :=
  (existsb (N.eqb p) primes && (length (filter (fun q => q <? p)%N primes) =? t)%nat &&
   existsb (fun c => let q := (c * 2 ^ w + k)%N in ((q ^ n <=? p * 2 ^ (n * w)) && (p * 2 ^ (n * w) <? (q + 1) ^ n))%N) (below 8))%bool.
Lemma checked_fraction n w t p k x : (0 < n)%N -> checked n (N.of_nat w) t p k = true -> (fraction n w t x <-> x = bits w k).
Proof.
  intros Hn H. unfold checked in H. rewrite !andb_true_iff in H. destruct H as [[H1 H2] H3]. apply Nat.eqb_eq in H2.
  pose proof (nth_prime_intro t p H1 H2) as HP. apply existsb_exists in H3. destruct H3 as (c & _ & H3). cbv zeta in H3.
  apply andb_true_iff in H3. destruct H3 as [L1 L2]. apply N.leb_le in L1. apply N.ltb_lt in L2.
  assert (HB : bits w (c * 2 ^ N.of_nat w + k) = bits w k).
  { rewrite <- bits_mod. rewrite N.add_comm, N.mod_add by (apply N.pow_nonzero; lia). apply bits_mod. }
  split.
  - intros (p' & q & HP' & HR & ->). rewrite (nth_prime_unique _ _ _ HP' HP) in HR.
    rewrite (root_unique n _ p q (c * 2 ^ N.of_nat w + k)%N Hn HR (Logic.conj L1 L2)). exact HB.
  - intros ->. exists p, (c * 2 ^ N.of_nat w + k)%N. split; [exact HP|]. split; [split; assumption|]. symmetry. exact HB.
Qed.
Definition all_checked (n w : N) (s : nat) (ks : list N) : bool :=
  forallb (fun t => checked n w (s + t) (nth (s + t) primes 0%N) (nth t ks 0%N)) (seq 0 (length ks)).
Lemma K256_checked : all_checked 3 32 0 Sha.K256 = true.
Proof. vm_compute. reflexivity. Qed.
Lemma K512_checked : all_checked 3 64 0 Sha.K512 = true.
Proof. vm_compute. reflexivity. Qed.
Lemma H256_checked : all_checked 2 32 0 (Sha.hinit Sha.SHA256p) = true.
Proof. vm_compute. reflexivity. Qed.
Lemma H512_checked : all_checked 2 64 0 (Sha.hinit Sha.SHA512p) = true.
Proof. vm_compute. reflexivity. Qed.
Lemma H384_checked : all_checked 2 64 8 (Sha.hinit Sha.SHA384p) = true.
Proof. vm_compute. reflexivity. Qed.
Lemma all_fraction n w s ks : (0 < n)%N -> all_checked n (N.of_nat w) s ks = true ->
  forall l : list word, length l = length ks -> ((forall t, t < length ks -> fraction n w (s + t) (nth t l [])) <-> l = map (bits w) ks).
Proof.
  intros Hn H l HL. unfold all_checked in H. rewrite forallb_forall in H.
  assert (X : forall t, t < length ks -> forall x, fraction n w (s + t) x <-> x = bits w (nth t ks 0%N)).
  { intros t Ht x. eapply checked_fraction; [exact Hn|]. apply H. apply in_seq. lia. }
  assert (B : forall t, t < length ks -> nth t (map (bits w) ks) [] = bits w (nth t ks 0%N)).
  { intros t Ht. rewrite (nth_indep _ [] (bits w 0%N)) by (rewrite map_length; exact Ht). apply map_nth. }
  split.
  - intros HF. apply (nth_ext _ _ [] []); [rewrite map_length; exact HL|]. intros t Ht. rewrite B by (rewrite <- HL; exact Ht).
    apply X; [rewrite <- HL; exact Ht|]. apply HF. rewrite <- HL. exact Ht.
  - intros -> t Ht. apply X; [exact Ht|]. apply B. exact Ht.
Qed.

Lemma fits_256 : fits SHA_256 Sha.SHA256p.
Proof. split; try reflexivity; try (cbn; lia). repeat constructor. Qed.
Lemma fits_512 : fits SHA_512 Sha.SHA512p.
Proof. split; try reflexivity; try (cbn; lia). repeat constructor. Qed.
Lemma fits_384 : fits SHA_384 Sha.SHA384p.
Proof. split; try reflexivity; try (cbn; lia). repeat constructor. Qed.

Lemma digest_iff V p : fits V p -> all_checked 3 (N.of_nat (v_w V)) 0 (Sha.kconst p) = true -> all_checked 2 (N.of_nat (v_w V)) (v_first V) (Sha.hinit p) = true ->
  forall s d, digest V (bits_of (list_ascii_of_string s)) d <-> d = firstn (v_digest V) (bits_of (list_ascii_of_string (Sha.sha2_hash p s))).
Proof.
  intros F HK HH s d. pose proof (fun l H => all_fraction 3 (v_w V) 0 (Sha.kconst p) ltac:(lia) HK l H) as XK.
  pose proof (fun l H => all_fraction 2 (v_w V) (v_first V) (Sha.hinit p) ltac:(lia) HH l H) as XH.
  rewrite (f_rounds _ _ F) in XK. rewrite (f_init _ _ F) in XH.
  pose proof (f_init _ _ F) as HL.
  assert (E : exists a b c e f g h i, Sha.hinit p = [a; b; c; e; f; g; h; i]).
  { destruct (Sha.hinit p) as [|a [|b [|c [|e [|f [|g [|h [|i [|]]]]]]]]]; try discriminate HL. eauto 10. }
  destruct E as (a0 & b0 & c0 & e0 & f0 & g0 & h0 & i0 & E).
  split.
  - intros (K & a & b & c & e & f & g & h & i & out & blocks & H & L & H1 & H2 & R).
    apply XK in H1; [|exact L]. apply XH in H2; [|reflexivity]. rewrite E in H2. injection H2 as -> -> -> -> -> -> -> ->.
    assert (G : (bits (v_w V) a0, bits (v_w V) b0, bits (v_w V) c0, bits (v_w V) e0, bits (v_w V) f0, bits (v_w V) g0, bits (v_w V) h0, bits (v_w V) i0) = vars_of V (Sha.hinit p))
      by (rewrite E; reflexivity).
    rewrite <- (string_of_list_ascii_of_string s). apply (digest_hash V p F K _ _ _ _ _ _ _ _ (list_ascii_of_string s) d H1 G). exists out, blocks, H. exact R.
  - intros Hd. rewrite <- (string_of_list_ascii_of_string s) in Hd.
    assert (G : (bits (v_w V) a0, bits (v_w V) b0, bits (v_w V) c0, bits (v_w V) e0, bits (v_w V) f0, bits (v_w V) g0, bits (v_w V) h0, bits (v_w V) i0) = vars_of V (Sha.hinit p))
      by (rewrite E; reflexivity).
    apply (digest_hash V p F _ _ _ _ _ _ _ _ _ (list_ascii_of_string s) d eq_refl G) in Hd.
    destruct Hd as (out & blocks & H & R). do 9 eexists. exists out, blocks, H. split; [rewrite map_length; apply F|]. split; [apply XK; [rewrite map_length; apply F|reflexivity]|].
    split; [apply XH; [reflexivity|rewrite E; reflexivity]|exact R].
Qed.
