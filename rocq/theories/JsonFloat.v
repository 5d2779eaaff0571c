(** * The number a float64 keeps of a literal. *)
From Coq Require Import Lia ZArith.
From Verif Require Import GoStr JsonFull JsonSpec.
Local Open Scope Z_scope.

Lemma round_div_spec a b : 0 < b ->
  2 * Z.abs (a - round_div a b * b) <= b /\ (2 * Z.abs (a - round_div a b * b) = b -> Z.even (round_div a b) = true).
Proof.
  intros HB. unfold round_div. cbv zeta.
  pose proof (Z.div_mod a b ltac:(lia)) as D. pose proof (Z.mod_pos_bound a b HB) as M.
  set (q := a / b) in *. set (r := a mod b) in *. clearbody q r.
  assert (E : forall k, a - (q + k) * b = r - k * b) by (intros k; rewrite D; ring).
  pose proof (E 0) as E0. pose proof (E 1) as E1. rewrite Z.add_0_r in E0.
  destruct (Z.ltb_spec (2 * r) b) as [L|L].
  { rewrite E0. split; lia. }
  destruct (Z.ltb_spec b (2 * r)) as [G|G].
  { rewrite E1. split; lia. }
  destruct (Z.even q) eqn:Ev.
  - rewrite E0. split; [lia|auto].
  - rewrite E1. split; [lia|]. intros _. rewrite Z.even_add, Ev. reflexivity.
Qed.
Lemma round_div_near a b k : 0 < b -> Z.abs (a - round_div a b * b) <= Z.abs (a - k * b).
Proof.
  intros HB. destruct (round_div_spec a b HB) as [H _]. set (m := round_div a b) in *. clearbody m.
  destruct (Z.eq_dec k m) as [->|N]; [lia|].
  assert (X : b <= Z.abs ((m - k) * b)) by (rewrite Z.abs_mul, (Z.abs_eq b) by lia; nia).
  replace (a - k * b) with (a - m * b + (m - k) * b) by ring. lia.
Qed.
Lemma round_div_tie a b k : 0 < b -> k <> round_div a b -> Z.abs (a - round_div a b * b) = Z.abs (a - k * b) -> Z.even (round_div a b) = true.
Proof.
  intros HB N E. destruct (round_div_spec a b HB) as [H T]. apply T. set (m := round_div a b) in *. clearbody m.
  assert (X : b <= Z.abs ((m - k) * b)) by (rewrite Z.abs_mul, (Z.abs_eq b) by lia; nia).
  replace (a - k * b) with (a - m * b + (m - k) * b) in E by ring. lia.
Qed.
Lemma round_div_unique a b m : 0 < b -> 2 * Z.abs (a - m * b) < b \/ (2 * Z.abs (a - m * b) = b /\ Z.even m = true) -> round_div a b = m.
Proof.
  intros HB H. destruct (Z.eq_dec (round_div a b) m) as [->|N]; [reflexivity|exfalso].
  pose proof (round_div_near a b m HB) as A.
  destruct (round_div_spec a b HB) as [S T]. set (q := round_div a b) in *. clearbody q.
  assert (X : a - q * b = a - m * b + (m - q) * b) by ring.
  destruct H as [H|[H Ev]].
  - assert (Y : b <= Z.abs ((m - q) * b)) by (rewrite Z.abs_mul, (Z.abs_eq b) by lia; nia). lia.
  - assert (Y : b <= Z.abs ((m - q) * b)) by (rewrite Z.abs_mul, (Z.abs_eq b) by lia; nia).
    assert (Z : Z.abs ((m - q) * b) = b) by lia. assert (W : Z.abs (m - q) = 1) by (rewrite Z.abs_mul, (Z.abs_eq b) in Z by lia; nia).
    assert (Ev2 : Z.even q = true) by (apply T; lia).
    assert (V : m = q + 1 \/ q = m + 1) by lia. destruct V as [-> | ->]; rewrite Z.even_add in *; rewrite ?Ev2, ?Ev in *; discriminate.
Qed.
Lemma round_div_scale a b c : 0 < b -> 0 < c -> round_div (a * c) (b * c) = round_div a b.
Proof.
  intros HB HC. apply round_div_unique; [nia|]. destruct (round_div_spec a b HB) as [S T].
  set (q := round_div a b) in *. clearbody q.
  replace (a * c - q * (b * c)) with ((a - q * b) * c) by ring. rewrite Z.abs_mul, (Z.abs_eq c) by lia.
  destruct (Z.eq_dec (2 * Z.abs (a - q * b)) b) as [E|N]; [right|left]; [split; [nia|auto]|nia].
Qed.

Lemma pow_pos e : 0 <= e -> 0 < 2 ^ e.
Proof. intros H. apply Z.pow_pos_nonneg; lia. Qed.
Lemma normal_unique d m e m' e' : normal d m e -> normal d m' e' -> m = m' /\ e = e' \/ d = 0.
Proof.
  intros (E & M & X & N) (E' & M' & X' & N').
  assert (L : forall m1 e1 m2 e2, m1 * 2 ^ e1 = m2 * 2 ^ e2 -> 0 <= m1 < 2 ^ 53 -> 0 <= e1 -> e1 < e2 -> (2 ^ 52 <= m2 \/ e2 = 0) -> False).
  { intros m1 e1 m2 e2 H1 H2 H3 H4 H5. assert (2 ^ 52 <= m2) by lia.
    replace e2 with (e1 + (1 + (e2 - e1 - 1))) in H1 by lia. rewrite !Z.pow_add_r in H1 by lia.
    pose proof (pow_pos e1 H3). pose proof (pow_pos (e2 - e1 - 1) ltac:(lia)).
    assert (m1 = m2 * (2 ^ 1 * 2 ^ (e2 - e1 - 1))) by nia. change (2 ^ 1) with 2 in *. change (2 ^ 53) with (2 * 2 ^ 52) in *. nia. }
  left. destruct (Z.lt_trichotomy e e') as [C|[C|C]].
  - destruct (L m e m' e'); auto; congruence.
  - subst e'. split; [|reflexivity]. pose proof (pow_pos e X). nia.
  - destruct (L m' e' m e); auto; congruence.
Qed.

Section Near.
Variables X den : Z.
Hypothesis HX : 0 <= X.
Hypothesis HD : 0 < den.
Let i := X / den.
Let e := Z.max 0 (Z.log2 i - 52).
Let U := 2 ^ e.
Let m := round_div X (den * U).
Definition near : Z := m * U.

Lemma i_pos : 0 <= i. Proof. apply Z.div_pos; lia. Qed.
Lemma U_pos : 0 < U. Proof. apply pow_pos. unfold e. lia. Qed.
Lemma e_pos : 0 <= e. Proof. unfold e. lia. Qed.
Lemma i_bounds : i * den <= X < (i + 1) * den.
Proof. unfold i. pose proof (Z.div_mod X den ltac:(lia)). pose proof (Z.mod_pos_bound X den HD). nia. Qed.
Lemma X_upper : X < 2 ^ 53 * U * den.
Proof.
  pose proof i_bounds as B. pose proof i_pos as P. assert (L : i < 2 ^ 53 * U).
  { unfold U. rewrite <- Z.pow_add_r by (try lia; apply e_pos).
    destruct (Z.eq_dec i 0) as [I0|N]; [rewrite I0; apply pow_pos; pose proof e_pos; lia|].
    pose proof (Z.log2_spec i ltac:(lia)) as [_ L]. eapply Z.lt_le_trans; [exact L|]. apply Z.pow_le_mono_r; unfold e; lia. }
  assert (i + 1 <= 2 ^ 53 * U) by lia. nia.
Qed.
Lemma X_lower : e = 0 \/ 2 ^ 52 * U * den <= X.
Proof.
  destruct (Z.eq_dec e 0) as [|N]; [auto|right]. pose proof i_bounds as B.
  assert (P : 0 < i). { destruct (Z.eq_dec i 0) as [Z0|]; [|pose proof i_pos; lia]. unfold e in N. rewrite Z0 in N. cbn in N. lia. }
  assert (L : 2 ^ 52 * U <= i).
  { unfold U. rewrite <- Z.pow_add_r by (try lia; apply e_pos). pose proof (Z.log2_spec i P) as [L _].
    eapply Z.le_trans; [|exact L]. apply Z.pow_le_mono_r; unfold e in *; lia. }
  nia.
Qed.
Lemma m_upper : m <= 2 ^ 53.
Proof.
  pose proof U_pos. destruct (round_div_spec X (den * U) ltac:(nia)) as [S _]. fold m in S. pose proof X_upper.
  destruct (Z.le_gt_cases m (2 ^ 53)); [assumption|exfalso]. assert (2 ^ 53 + 1 <= m) by lia.
  assert ((2 ^ 53 + 1) * (den * U) <= m * (den * U)) by nia. nia.
Qed.
Lemma m_lower : e = 0 /\ 0 <= m \/ 2 ^ 52 <= m.
Proof.
  pose proof U_pos. destruct (round_div_spec X (den * U) ltac:(nia)) as [S _]. fold m in S.
  destruct X_lower as [L|L]; [left; split; auto|right].
  - destruct (Z.le_gt_cases 0 m); [assumption|exfalso]. assert (m * (den * U) <= (-1) * (den * U)) by nia. lia.
  - destruct (Z.le_gt_cases (2 ^ 52) m); [assumption|exfalso]. assert (m * (den * U) <= (2 ^ 52 - 1) * (den * U)) by nia. nia.
Qed.
Lemma near_normal : exists m' e', normal near m' e' /\ (Z.even m = true -> Z.even m' = true).
Proof.
  pose proof m_upper. pose proof e_pos. destruct (Z.eq_dec m (2 ^ 53)) as [E|N].
  - exists (2 ^ 52), (e + 1). split; [|reflexivity]. unfold normal, near, U. rewrite E, Z.pow_add_r by lia. split; [change (2 ^ 53) with (2 ^ 52 * 2); change (2 ^ 1) with 2; ring|]. lia.
  - exists m, e. split; [|auto]. unfold normal, near, U. pose proof m_lower. repeat split; lia.
Qed.
Lemma normal_double d m' e' : normal d m' e' -> double d.
Proof. intros (E & M & N & _). exists m', e'. auto. Qed.
(* any other one is no nearer than some multiple of the unit *)
Lemma others d' : double d' -> (exists k, d' = k * U) \/ Z.abs (X - 2 ^ 52 * (den * U)) < Z.abs (X - d' * den).
Proof.
  intros (m' & e' & M' & E' & ->). destruct (Z.le_gt_cases e e') as [L|L].
  - left. exists (m' * 2 ^ (e' - e)). unfold U. rewrite <- Z.mul_assoc, <- Z.pow_add_r by (pose proof e_pos; lia). do 2 f_equal. lia.
  - right. destruct X_lower as [Z0|XL]; [lia|]. pose proof U_pos.
    assert (B : m' * 2 ^ e' < 2 ^ 52 * U).
    { unfold U. replace e with (e' + (1 + (e - e' - 1))) by lia. rewrite !Z.pow_add_r by lia. change (2 ^ 1) with 2.
      pose proof (pow_pos e' E'). pose proof (pow_pos (e - e' - 1) ltac:(lia)). change (2 ^ 53) with (2 * 2 ^ 52) in M'. 
      assert (m' * 2 ^ e' < 2 * 2 ^ 52 * 2 ^ e') by nia. assert (2 ^ e' <= 2 ^ e' * 2 ^ (e - e' - 1)) by nia. nia. }
    assert (m' * 2 ^ e' * den < 2 ^ 52 * U * den) by nia. rewrite (Z.abs_eq (X - 2 ^ 52 * (den * U))) by nia. rewrite (Z.abs_eq (X - m' * 2 ^ e' * den)) by nia. nia.
Qed.
Lemma near_dist d' : double d' -> Z.abs (X - near * den) <= Z.abs (X - d' * den).
Proof.
  intros H. pose proof U_pos. assert (E : near * den = m * (den * U)) by (unfold near; ring). rewrite E.
  destruct (others d' H) as [[k ->]|L].
  - replace (k * U * den) with (k * (den * U)) by ring. apply round_div_near. nia.
  - pose proof (round_div_near X (den * U) (2 ^ 52) ltac:(nia)) as N. fold m in N. lia.
Qed.
Lemma near_tie d' : double d' -> d' <> near -> Z.abs (X - near * den) = Z.abs (X - d' * den) -> Z.even m = true.
Proof.
  intros H N T. pose proof U_pos. assert (E : near * den = m * (den * U)) by (unfold near; ring). rewrite E in T.
  destruct (others d' H) as [[k ->]|L].
  - replace (k * U * den) with (k * (den * U)) in T by ring. apply (round_div_tie X (den * U) k); auto; [nia|].
    intros ->. apply N. reflexivity.
  - pose proof (round_div_near X (den * U) (2 ^ 52) ltac:(nia)) as M. fold m in M. lia.
Qed.
End Near.

Lemma near_nearest num den : 0 <= num -> 0 < den -> nearest num den (near (num * 2 ^ 1074) den).
Proof.
  intros HN HD. unfold nearest. set (K := 2 ^ 1074) in *. assert (KP : 0 < K) by (apply pow_pos; lia). clearbody K.
  assert (HX : 0 <= num * K) by nia. cbv zeta. split; [|split].
  - destruct (near_normal (num * K) den HX HD) as (m' & e' & H & _). eapply normal_double. exact H.
  - intros d' H. apply near_dist; auto.
  - intros d' H N T. destruct (near_normal (num * K) den HX HD) as (m' & e' & H' & Ev). exists m', e'. split; auto. apply Ev.
    apply (near_tie (num * K) den HX HD d'); auto.
Qed.
(* two even neighbours have another one between them *)
Lemma even_between d1 m1 e1 d2 m2 e2 : normal d1 m1 e1 -> normal d2 m2 e2 -> Z.even m1 = true -> Z.even m2 = true -> d1 < d2 ->
  exists c, double c /\ d1 < c < d2.
Proof.
  intros N1 N2 Ev1 Ev2 L. pose proof N1 as (E1 & M1 & X1 & P1). pose proof N2 as (E2 & M2 & X2 & P2).
  assert (M1' : m1 + 1 < 2 ^ 53).
  { destruct (Z.eq_dec (m1 + 1) (2 ^ 53)) as [E|]; [|lia]. exfalso. assert (m1 = 2 ^ 53 - 1) as Y by lia. rewrite Y in Ev1. discriminate Ev1. }
  pose proof (pow_pos e1 X1) as Q1. pose proof (pow_pos e2 X2) as Q2.
  exists ((m1 + 1) * 2 ^ e1). split; [exists (m1 + 1), e1; repeat split; lia|]. split; [nia|].
  destruct (Z.le_gt_cases e1 e2) as [C|C].
  - replace e2 with (e1 + (e2 - e1)) in E2 by lia. rewrite Z.pow_add_r in E2 by lia. pose proof (pow_pos (e2 - e1) ltac:(lia)).
    assert (A : m1 < m2 * 2 ^ (e2 - e1)) by nia.
    destruct (Z.eq_dec (m1 + 1) (m2 * 2 ^ (e2 - e1))) as [T|T].
    + exfalso. assert (Z.even (m1 + 1) = true) by (rewrite T, Z.even_mul, Ev2; reflexivity). rewrite Z.even_add, Ev1 in H0. discriminate H0.
    + assert (m1 + 1 < m2 * 2 ^ (e2 - e1)) by lia. nia.
  - exfalso. replace e1 with (e2 + (1 + (e1 - e2 - 1))) in E1 by lia. rewrite !Z.pow_add_r in E1 by lia. change (2 ^ 1) with 2 in E1.
    pose proof (pow_pos (e1 - e2 - 1) ltac:(lia)). change (2 ^ 53) with (2 * 2 ^ 52) in M2. assert (2 ^ 52 <= m1) by lia.
    assert (m2 * 2 ^ e2 < 2 * 2 ^ 52 * 2 ^ e2) by nia. assert (2 ^ e2 <= 2 ^ e2 * 2 ^ (e1 - e2 - 1)) by nia.
    assert (2 ^ 52 * (2 ^ e2 * (2 * 2 ^ (e1 - e2 - 1))) <= m1 * (2 ^ e2 * (2 * 2 ^ (e1 - e2 - 1)))) by nia. nia.
Qed.
Lemma nearest_unique num den d1 d2 : 0 < den -> nearest num den d1 -> nearest num den d2 -> d1 = d2.
Proof.
  intros HD (D1 & L1 & T1) (D2 & L2 & T2). destruct (Z.eq_dec d1 d2) as [|N]; [assumption|exfalso].
  cbv zeta beta in *. set (X := num * 2 ^ 1074) in *. clearbody X.
  pose proof (L1 d2 D2) as A. pose proof (L2 d1 D1) as B. assert (E : Z.abs (X - d1 * den) = Z.abs (X - d2 * den)) by lia.
  destruct (T1 d2 D2 ltac:(congruence) E) as (m1 & e1 & N1 & Ev1). destruct (T2 d1 D1 ltac:(congruence) ltac:(congruence)) as (m2 & e2 & N2 & Ev2).
  assert (L : forall a b, a < b -> Z.abs (X - a * den) = Z.abs (X - b * den) -> (exists c, double c /\ a < c < b) ->
     (forall d', double d' -> Z.abs (X - a * den) <= Z.abs (X - d' * den)) -> False).
  { intros a b AB EQ (c & DC & C) LE. specialize (LE c DC). assert (a * den < c * den) by nia. assert (c * den < b * den) by nia. lia. }
  destruct (Z.lt_trichotomy d1 d2) as [C|[C|C]]; [|contradiction|].
  - apply (L d1 d2 C E); auto. eapply even_between; eauto.
  - apply (L d2 d1 C ltac:(congruence)); auto. eapply even_between; eauto.
Qed.

(** ** [float_trunc] *)
Lemma split_pow a b : 0 <= a -> 0 <= b -> 2 ^ (a + b) = 2 ^ a * 2 ^ b.
Proof. intros. apply Z.pow_add_r; lia. Qed.
Lemma floor_bounds a b : 0 < b -> a / b * b <= a < (a / b + 1) * b.
Proof. intros H. pose proof (Z.div_mod a b ltac:(lia)). pose proof (Z.mod_pos_bound a b H). nia. Qed.

Lemma float_small_case num den d : 0 <= num -> 0 < den -> num / den < 1 -> nearest num den d ->
  d <= 2 ^ 1074 /\ d / 2 ^ 1074 = if (2 ^ 54 - 1) * den <=? num * 2 ^ 54 then 1 else 0.
Proof.
  intros HN HD HI H. pose proof (floor_bounds num den HD) as F. assert (I0 : num < den) by nia. clear F HI.
  assert (DP : 0 <= d). { destruct H as ((m & e & M & E & ->) & _). pose proof (pow_pos e E). nia. }
  assert (C1 : double (2 ^ 1074)). { exists (2 ^ 52), 1022. repeat split; lia. }
  assert (C2 : double (2 ^ 1074 - 2 ^ 1021)). { exists (2 ^ 53 - 1), 1021. repeat split; lia. }
  assert (KK : 2 ^ 1074 = 2 ^ 54 * 2 ^ 1020) by reflexivity. assert (KL : 2 ^ 1021 = 2 * 2 ^ 1020) by reflexivity.
  pose proof (pow_pos 1020 ltac:(lia)) as PP.
  assert (E1 : exists m1 e1, normal (2 ^ 1074) m1 e1 /\ Z.even m1 = true).
  { exists (2 ^ 52), 1022. split; [|reflexivity]. split; [reflexivity|]. lia. }
  assert (NE : forall m e, normal (2 ^ 1074 - 2 ^ 1021) m e -> Z.even m = true -> False).
  { intros m e N Ev. destruct (normal_unique (2 ^ 1074 - 2 ^ 1021) m e (2 ^ 53 - 1) 1021 N) as [[-> _]|Z0].
    - split; [reflexivity|]. lia.
    - discriminate Ev.
    - rewrite KK, KL in Z0. lia. }
  destruct H as (HDbl & LE & TIE). cbv zeta beta in LE, TIE. pose proof (LE _ C1) as L1. pose proof (LE _ C2) as L2.
  pose proof (TIE _ C1) as T1. pose proof (TIE _ C2) as T2.
  assert (DU : d <= 2 ^ 1074).
  { destruct (Z.le_gt_cases d (2 ^ 1074)) as [|G]; [assumption|exfalso]. assert (num * 2 ^ 1074 < 2 ^ 1074 * den) by nia. assert (2 ^ 1074 * den < d * den) by nia. lia. }
  split; [assumption|].
  destruct (Z.leb_spec ((2 ^ 54 - 1) * den) (num * 2 ^ 54)) as [C|C].
  - (* at least halfway between the last one below 1 and 1 *)
    assert (B : (2 ^ 54 - 1) * den * 2 ^ 1020 <= num * 2 ^ 1074) by (rewrite KK; nia).
    assert (U : num * 2 ^ 1074 < den * 2 ^ 1074) by nia.
    destruct (Z.eq_dec d (2 ^ 1074)) as [->|NE1]; [apply Z.div_same; lia|exfalso].
    assert (DL : d < 2 ^ 1074) by lia.
    (* d is at most the one before *)
    assert (DB : d <= 2 ^ 1074 - 2 ^ 1021).
    { destruct HDbl as (m & e & M & E & ->). destruct (Z.le_gt_cases 1021 e) as [G|G].
      - replace e with (1021 + (e - 1021)) in * by lia. rewrite (split_pow 1021) in * by lia. pose proof (pow_pos (e - 1021) ltac:(lia)).
        set (k := m * 2 ^ (e - 1021)). assert (Ek : m * (2 ^ 1021 * 2 ^ (e - 1021)) = k * 2 ^ 1021) by (unfold k; ring). rewrite Ek in *.
        rewrite KK, KL in *. assert (k * 2 < 2 ^ 54) by nia. assert (k <= 2 ^ 53 - 1) by lia. nia.
      - assert (2 ^ e <= 2 ^ 1020) by (apply Z.pow_le_mono_r; lia). rewrite KK, KL. assert (m * 2 ^ e <= (2 ^ 53 - 1) * 2 ^ 1020) by nia. nia. }
    assert (X1 : d * den <= (2 ^ 1074 - 2 ^ 1021) * den) by nia.
    assert (X2 : (2 ^ 1074 - 2 ^ 1021) * den + 2 ^ 1020 * den <= num * 2 ^ 1074) by (rewrite KK, KL in *; nia).
    assert (X3 : Z.abs (num * 2 ^ 1074 - d * den) = Z.abs (num * 2 ^ 1074 - 2 ^ 1074 * den)).
    { rewrite KK, KL in *. nia. }
    assert (d = 2 ^ 1074 - 2 ^ 1021). { rewrite KK, KL in *. nia. }
    subst d. destruct (T1 ltac:(lia) X3) as (m & e & N & Ev). exact (NE m e N Ev).
  - assert (d < 2 ^ 1074); [|apply Z.div_small; lia].
    destruct (Z.eq_dec d (2 ^ 1074)) as [->|]; [exfalso|lia].
    assert (B : num * 2 ^ 1074 < (2 ^ 54 - 1) * den * 2 ^ 1020) by (rewrite KK; nia).
    rewrite KK, KL in *. nia.
Qed.
Lemma log2_scaled num den : 0 < den -> 1 <= num / den -> Z.log2 (num * 2 ^ 1074 / den) = Z.log2 (num / den) + 1074.
Proof.
  intros HD HI. pose proof (floor_bounds num den HD) as F. pose proof (Z.log2_spec (num / den) ltac:(lia)) as [A B].
  pose proof (Z.log2_nonneg (num / den)). set (i := num / den) in *. clearbody i. set (k := Z.log2 i) in *. clearbody k.
  pose proof (pow_pos 1074 ltac:(lia)) as PK. apply Z.log2_unique; [lia|]. rewrite Z.pow_succ_r in * by lia. rewrite !split_pow by lia.
  set (K := 2 ^ 1074) in *. clearbody K. set (P := 2 ^ k) in *. clearbody P. split.
  - apply Z.div_le_lower_bound; [lia|]. assert (P * den <= num) by nia. nia.
  - apply Z.div_lt_upper_bound; [lia|]. assert (num < 2 * P * den) by nia. nia.
Qed.
Lemma float_trunc_nearest num den d : 0 <= num -> 0 < den -> nearest num den d ->
  float_trunc num den = if d <? 2 ^ 1024 * 2 ^ 1074 then Some (d / 2 ^ 1074) else None.
Proof.
  intros HN HD H. unfold float_trunc. cbv zeta.
  pose proof (pow_pos 1074 ltac:(lia)) as PK. pose proof (pow_pos 1024 ltac:(lia)) as PL.
  destruct (Z.ltb_spec (num / den) 1) as [I|I].
  { destruct (float_small_case num den d HN HD I H) as [A B]. rewrite B.
    replace (d <? 2 ^ 1024 * 2 ^ 1074) with true; [reflexivity|]. symmetry. apply Z.ltb_lt.
    assert (1 < 2 ^ 1024) by (apply (Z.pow_gt_1 2 1024); lia). nia. }
  assert (HX : 0 <= num * 2 ^ 1074) by nia.
  rewrite (nearest_unique num den d _ HD H (near_nearest num den HN HD)). clear H d.
  pose proof (m_upper (num * 2 ^ 1074) den HX HD) as MU.
  unfold near. rewrite log2_scaled in * by lia. pose proof (Z.log2_nonneg (num / den)) as LP.
  set (k := Z.log2 (num / den)) in *. clearbody k. rewrite Z.max_r in * by lia. replace (k + 1074 - 52) with (k - 52 + 1074) in * by lia.
  destruct (Z.leb_spec 0 (k - 52)) as [C|C].
  - rewrite (split_pow (k - 52) 1074) in * by lia. pose proof (pow_pos (k - 52) C) as PE.
    set (E := 2 ^ (k - 52)) in *. clearbody E. set (K := 2 ^ 1074) in *. clearbody K.
    replace (den * (E * K)) with (den * E * K) by ring. rewrite round_div_scale by nia.
    set (f := round_div num (den * E)). clearbody f. replace (f * (E * K)) with (f * E * K) by ring.
    rewrite Z.div_mul by lia. set (L := 2 ^ 1024) in *. clearbody L.
    destruct (Z.ltb_spec (f * E) L) as [A|A]; destruct (Z.ltb_spec (f * E * K) (L * K)) as [B|B]; try reflexivity; exfalso; nia.
  - assert (KS : 2 ^ 1074 = 2 ^ (- (k - 52)) * 2 ^ (k - 52 + 1074)) by (rewrite <- split_pow by lia; f_equal; lia).
    pose proof (pow_pos (- (k - 52)) ltac:(lia)) as PE. pose proof (pow_pos (k - 52 + 1074) ltac:(lia)) as PF.
    assert (FB : 2 ^ (k - 52 + 1074) <= 2 ^ 1074) by (apply Z.pow_le_mono_r; lia).
    rewrite KS in *. set (E := 2 ^ (- (k - 52))) in *. clearbody E. set (F := 2 ^ (k - 52 + 1074)) in *. clearbody F. clear KS.
    replace (num * (E * F)) with (num * E * F) in * by ring. rewrite round_div_scale in * by nia.
    set (g := round_div (num * E) den) in *. clearbody g. rewrite Z.div_mul_cancel_r by lia.
    replace (g * F <? 2 ^ 1024 * (E * F)) with true; [reflexivity|]. symmetry. apply Z.ltb_lt.
    assert (2 ^ 53 < 2 ^ 1024) by (apply Z.pow_lt_mono_r; lia). set (L := 2 ^ 1024) in *. clearbody L. nia.
Qed.
