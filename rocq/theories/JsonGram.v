(** * The JSON readers and the grammar: string literals. *)
From Coq Require Import Lia.
From Verif Require Import GoStr Codec Json StrFacts Core JsonParse JsonFull CodecSpec HttpSpec JsonSpec JsonFacts HttpFacts.

(** ** Characters *)
Ltac leads := unfold lead, byte_in, surrogate, between in *.
Lemma character_seq c n : character c n -> seq c.
Proof.
  intros H. destruct H; leads.
  - apply sq1. leads. lia.
  - apply sq2; leads; lia.
  - apply sq3; leads; lia.
  - apply sq4; leads; lia.
Qed.
Lemma seq_character c : seq c -> exists n, character c n.
Proof.
  intros H. destruct H as [a A|a b A B|a b c A B|a b c d A B C]; leads.
  - eexists. apply cp_1 with (n := N_of_ascii a); leads; lia.
  - eexists. apply (cp_2 a b (N_of_ascii a - 192) (N_of_ascii b - 128) _); leads; try reflexivity; lia.
  - eexists. apply (cp_3 a b c (N_of_ascii a - 224) (N_of_ascii b - 128) (N_of_ascii c - 128) _); leads; try reflexivity; lia.
  - eexists. apply (cp_4 a b c d (N_of_ascii a - 240) (N_of_ascii b - 128) (N_of_ascii c - 128) (N_of_ascii d - 128) _); leads; try reflexivity; lia.
Qed.
Lemma byte_eq a n : N_of_ascii a = n -> a = byte n.
Proof. intros <-. symmetry. apply ascii_N_embedding. Qed.
Lemma div_at x y k : (y < k)%N -> ((x * k + y) / k = x)%N.
Proof. intros H. rewrite N.div_add_l by lia. rewrite N.div_small by assumption. lia. Qed.
Lemma mod_at x y k : (y < k)%N -> ((x * k + y) mod k = y)%N.
Proof. intros H. rewrite N.add_comm, N.mod_add by lia. apply N.mod_small. assumption. Qed.
Lemma character_bytes c n : character c n -> c = utf8_bytes n.
Proof.
  intros H. unfold utf8_bytes. destruct H as [a n A B|a b x y n A Ax B By -> L|a b c x y z n A Ax B By C Cz -> L S|a b c d x y z u n A Ax B By C Cz D Du -> L]; leads.
  - destruct (N.ltb_spec n 128); [|lia]. rewrite (byte_eq a n) by assumption. reflexivity.
  - destruct (N.ltb_spec (x * 64 + y) 128); [lia|]. destruct (N.ltb_spec (x * 64 + y) 2048); [|lia].
    rewrite div_at, mod_at by assumption. rewrite <- A, <- B. unfold byte; rewrite !ascii_N_embedding; reflexivity.
  - set (n := ((x * 64 + y) * 64 + z)%N) in *.
    destruct (N.ltb_spec n 128); [lia|]. destruct (N.ltb_spec n 2048); [lia|]. destruct (N.ltb_spec n 65536); [|lia].
    replace (n / 4096)%N with x by (change 4096%N with (64 * 64)%N; rewrite <- N.div_div by lia; unfold n; rewrite !div_at by assumption; reflexivity).
    replace (n / 64)%N with (x * 64 + y)%N by (unfold n; rewrite div_at by assumption; reflexivity).
    unfold n. rewrite !mod_at by assumption. rewrite <- A, <- B, <- C. unfold byte; rewrite !ascii_N_embedding; reflexivity.
  - set (n := (((x * 64 + y) * 64 + z) * 64 + u)%N) in *.
    destruct (N.ltb_spec n 128); [lia|]. destruct (N.ltb_spec n 2048); [lia|]. destruct (N.ltb_spec n 65536); [lia|].
    replace (n / 262144)%N with x by (change 262144%N with (64 * (64 * 64))%N; rewrite <- !N.div_div by lia; unfold n; rewrite !div_at by assumption; reflexivity).
    replace (n / 4096)%N with (x * 64 + y)%N by (change 4096%N with (64 * 64)%N; rewrite <- !N.div_div by lia; unfold n; rewrite !div_at by assumption; reflexivity).
    replace (n / 64)%N with ((x * 64 + y) * 64 + z)%N by (unfold n; rewrite div_at by assumption; reflexivity).
    unfold n. rewrite !mod_at by assumption. rewrite <- A, <- B, <- C, <- D. unfold byte; rewrite !ascii_N_embedding; reflexivity.
Qed.
Lemma N_byte n : (n < 256)%N -> N_of_ascii (byte n) = n.
Proof. apply N_ascii_embedding. Qed.
Lemma euclid n k : (0 < k)%N -> exists q r, n = (q * k + r)%N /\ (r < k)%N /\ (n / k = q)%N /\ (n mod k = r)%N.
Proof.
  intros H. exists (n / k)%N, (n mod k)%N. repeat split; [|apply N.mod_lt; lia].
  rewrite N.mul_comm. apply N.div_mod. lia.
Qed.
Lemma bytes_character n : ~ surrogate n -> (n <= 0x10FFFF)%N -> character (utf8_bytes n) n.
Proof.
  intros HS HN. leads. unfold utf8_bytes.
  destruct (N.ltb_spec n 128); [apply cp_1; leads; rewrite ?N_byte by lia; lia|].
  replace (n / 4096)%N with (n / 64 / 64)%N by (rewrite N.div_div by lia; reflexivity).
  replace (n / 262144)%N with (n / 64 / 64 / 64)%N by (rewrite !N.div_div by lia; reflexivity).
  destruct (euclid n 64 ltac:(lia)) as (q1 & r1 & D1 & M1 & -> & ->).
  destruct (euclid q1 64 ltac:(lia)) as (q2 & r2 & D2 & M2 & -> & ->).
  destruct (euclid q2 64 ltac:(lia)) as (q3 & r3 & D3 & M3 & -> & ->).
  destruct (N.ltb_spec n 2048).
  { apply (cp_2 _ _ q1 r1); leads; rewrite ?N_byte by lia; lia. }
  destruct (N.ltb_spec n 65536).
  { apply (cp_3 _ _ _ q2 r2 r1); leads; rewrite ?N_byte by lia; lia. }
  apply (cp_4 _ _ _ _ q3 r3 r2 r1); leads; rewrite ?N_byte by lia; lia.
Qed.

(** ** One character of a literal *)
Lemma hex4_val_iff s n r : hex4_val s = Some (n, r) <-> exists h, hex4 h n /\ s = (h ++ r)%string.
Proof.
  split.
  - intros H. destruct s as [|a [|b [|c [|d s]]]]; try discriminate H. cbn [hex4_val] in H.
    destruct (hex_val a) as [w|] eqn:A; [|discriminate H]. destruct (hex_val b) as [x|] eqn:B; [|discriminate H].
    destruct (hex_val c) as [y|] eqn:C; [|discriminate H]. destruct (hex_val d) as [z|] eqn:D; [|discriminate H].
    injection H as <- <-. apply hex_val_digit in A, B, C, D.
    exists (String a (String b (String c (String d "")))). split; [|reflexivity].
    replace (((w * 16 + x) * 16 + y) * 16 + z)%N with (w * 0x1000 + x * 0x100 + y * 0x10 + z)%N by lia. constructor; assumption.
  - intros (h & H & ->). destruct H as [a b c d w x y z A B C D]. apply hex_val_digit in A, B, C, D.
    cbn [append hex4_val]. rewrite A, B, C, D. do 2 f_equal. lia.
Qed.
Lemma hex4_bound h n : hex4 h n -> (n < 0x10000)%N.
Proof.
  intros H. destruct H as [a b c d w x y z A B C D].
  assert (X : forall p q, hex_digit p q -> (q < 16)%N) by (intros p q H; destruct H; lia).
  apply X in A, B, C, D. lia.
Qed.
Lemma high_iff n : is_high n = true <-> high n.
Proof. unfold is_high, high, between. rewrite andb_true_iff, N.leb_le, N.ltb_lt. lia. Qed.
Lemma low_iff n : is_low n = true <-> low n.
Proof. unfold is_low, low, between. rewrite andb_true_iff, N.leb_le, N.ltb_lt. lia. Qed.
Lemma surrogate_iff n : surrogate n <-> high n \/ low n.
Proof. unfold surrogate, high, low, between. lia. Qed.
Lemma u_escape_eq h s : u_escape h s = String backslash (String "u" (h ++ s)).
Proof. reflexivity. Qed.

(* one character: its text, what it stands for, the rest *)
Inductive one : string -> string -> string -> Prop :=
| one_char c n s : character c n -> (0x20 <= n)%N -> n <> 34%N -> n <> 92%N -> one (c ++ s) c s
| one_bad a s : (forall c n r, String a s = (c ++ r)%string -> ~ character c n) -> one (String a s) fffd s
| one_escape e b s : In (e, b) escapes -> one (String "092" (String e s)) (String b "") s
| one_unicode h n c s : hex4 h n -> character c n -> one (u_escape h s) c s
| one_pair h1 n1 h2 n2 c s : hex4 h1 n1 -> high n1 -> hex4 h2 n2 -> low n2 ->
    character c (0x10000 + (n1 - 0xD800) * 0x400 + (n2 - 0xDC00)) -> one (u_escape h1 (u_escape h2 s)) c s
| one_lone h n s : hex4 h n -> surrogate n ->
    (high n -> forall h2 n2 r, s = u_escape h2 r -> hex4 h2 n2 -> ~ low n2) -> one (u_escape h s) fffd s.

Lemma replacement_fffd : replacement = fffd.
Proof. reflexivity. Qed.

Lemma junicode_sound s t r : junicode s = Some (t, r) -> one (String "092" (String "u" s)) t r.
Proof.
  intros H. unfold junicode in H. destruct (hex4_val s) as [[n r0]|] eqn:E; [|discriminate H].
  apply hex4_val_iff in E. destruct E as (h & Hh & ->). change (String "092" (String "u" (h ++ r0))) with (u_escape h r0).
  pose proof (hex4_bound h n Hh) as HB.
  destruct (is_high n) eqn:E1.
  { apply high_iff in E1.
    assert (L : (forall h2 n2 x, r0 = u_escape h2 x -> hex4 h2 n2 -> ~ low n2) -> one (u_escape h r0) replacement r0).
    { intros X. apply (one_lone h n); auto. apply surrogate_iff. left. assumption. }
    destruct r0 as [|b [|u r1]].
    - injection H as <- <-. apply L. intros h2 n2 x X. discriminate X.
    - injection H as <- <-. apply L. intros h2 n2 x X. discriminate X.
    - destruct (Ascii.eqb b backslash && Ascii.eqb u "u")%bool eqn:E2.
      + apply andb_true_iff in E2. destruct E2 as [E2 E3]. apply Ascii.eqb_eq in E2, E3. subst b u.
        destruct (hex4_val r1) as [[m r2]|] eqn:E4.
        * destruct (is_low m) eqn:E5.
          { remember (65536 + (n - 55296) * 1024 + (m - 56320))%N as cp eqn:CP in H. injection H as <- <-. apply hex4_val_iff in E4. destruct E4 as (h2 & H2 & ->).
            change (String backslash (String "u" (h2 ++ r2))) with (u_escape h2 r2). apply low_iff in E5.
            apply (one_pair h n h2 m); auto; rewrite <- CP; apply bytes_character; revert E1 E5; unfold high, low, surrogate, between; lia. }
          injection H as <- <-. apply L. intros h2 n2 x X Y Z. rewrite u_escape_eq in X. injection X as ->.
          assert (E6 : hex4_val (h2 ++ x) = Some (n2, x)) by (apply hex4_val_iff; eauto).
          rewrite E6 in E4. injection E4 as <- <-. apply low_iff in Z. congruence.
        * injection H as <- <-. apply L. intros h2 n2 x X Y Z. rewrite u_escape_eq in X. injection X as ->.
          assert (E6 : hex4_val (h2 ++ x) = Some (n2, x)) by (apply hex4_val_iff; eauto). congruence.
      + injection H as <- <-. apply L. intros h2 n2 x X Y Z. rewrite u_escape_eq in X. injection X as -> -> _.
        rewrite !Ascii.eqb_refl in E2. discriminate E2. }
  destruct (is_low n) eqn:E2.
  { injection H as <- <-. apply low_iff in E2. apply (one_lone h n); auto. apply surrogate_iff. right. assumption.
    intros X. apply high_iff in X. congruence. }
  injection H as <- <-. apply (one_unicode h n); auto. apply bytes_character; [|lia].
  intros X. apply surrogate_iff in X. destruct X as [X|X]; [apply high_iff in X|apply low_iff in X]; congruence.
Qed.

Lemma ascii_character a : (N_of_ascii a < 128)%N -> character (String a "") (N_of_ascii a).
Proof. intros H. apply cp_1; [unfold lead; lia|exact H]. Qed.
Lemma dquote_n a : a = dquote <-> N_of_ascii a = 34%N.
Proof. change dquote with (ascii_of_N 34). rewrite <- ascii_n by reflexivity. symmetry. apply Ascii.eqb_eq. Qed.
Lemma backslash_n a : a = backslash <-> N_of_ascii a = 92%N.
Proof. change backslash with (ascii_of_N 92). rewrite <- ascii_n by reflexivity. symmetry. apply Ascii.eqb_eq. Qed.

Lemma seq_first c : seq c -> exists a r, c = String a r /\ ((128 <= N_of_ascii a)%N \/ r = "").
Proof.
  intros H. destruct H as [a A|a b A B|a b c A B|a b c d A B C]; do 2 eexists; (split; [reflexivity|]); leads; auto; left; lia.
Qed.
Lemma seq_jchar c n s : character c n -> (0x20 <= n)%N -> n <> 34%N -> n <> 92%N -> jchar (c ++ s) = Some (Some c, s).
Proof.
  intros HC H1 H2 H3. pose proof (character_seq c n HC) as HS.
  destruct HS as [a A|a b A B|a b c A B|a b c d A B C].
  - cbn [append jchar]. inversion HC; subst. leads.
    destruct (Ascii.eqb_spec a dquote) as [->|N1]; [exfalso; apply H2; rewrite <- (N.add_0_l n), <- H0; reflexivity|].
    destruct (Ascii.eqb_spec a backslash) as [->|N2]; [exfalso; apply H3; rewrite <- (N.add_0_l n), <- H0; reflexivity|].
    unfold nb. destruct (N.ltb_spec (N_of_ascii a) 32); [lia|]. destruct (N.ltb_spec (N_of_ascii a) 128); [reflexivity|lia].
  - assert (HH : (128 <= nb a)%N) by (unfold nb; leads; lia). destruct (high_byte a HH) as (Q1 & Q2 & Q3 & Q4).
    cbn [append jchar]. rewrite Q1, Q2, Q3, Q4. rewrite (proj2 (utf8_2_spec a b)) by auto. reflexivity.
  - assert (HH : (128 <= nb a)%N) by (unfold nb; leads; lia). destruct (high_byte a HH) as (Q1 & Q2 & Q3 & Q4).
    cbn [append jchar]. rewrite Q1, Q2, Q3, Q4. rewrite (proj2 (utf8_3_spec a b c)) by auto.
    destruct (utf8_2 a b) eqn:E; [apply utf8_2_spec in E; leads; lia|]. reflexivity.
  - assert (HH : (128 <= nb a)%N) by (unfold nb; leads; lia). destruct (high_byte a HH) as (Q1 & Q2 & Q3 & Q4).
    cbn [append jchar]. rewrite Q1, Q2, Q3, Q4. rewrite (proj2 (utf8_4_spec a b c d)) by auto.
    destruct (utf8_2 a b) eqn:E; [apply utf8_2_spec in E; leads; lia|].
    destruct (utf8_3 a b c) eqn:E'; [apply utf8_3_spec in E'; leads; lia|]. reflexivity.
Qed.
Lemma bad_jchar a s : (forall c n r, String a s = (c ++ r)%string -> ~ character c n) -> jchar (String a s) = Some (Some fffd, s).
Proof.
  intros H. assert (HS : forall c r, String a s = (c ++ r)%string -> ~ seq c).
  { intros c r E X. apply seq_character in X. destruct X as [n X]. exact (H c n r E X). }
  assert (HH : (128 <= nb a)%N).
  { destruct (N.le_gt_cases 128 (nb a)) as [X|X]; [exact X|]. exfalso. apply (H (String a "") (N_of_ascii a) s eq_refl). apply ascii_character. exact X. }
  destruct (high_byte a HH) as (Q1 & Q2 & Q3 & Q4). cbn [jchar]. rewrite Q1, Q2, Q3, Q4.
  destruct s as [|b s]; [reflexivity|].
  destruct (utf8_2 a b) eqn:E2.
  { exfalso. apply (HS (String a (String b "")) s eq_refl). apply utf8_2_spec in E2. apply sq2; tauto. }
  destruct s as [|c s]; [reflexivity|].
  destruct (utf8_3 a b c) eqn:E3.
  { exfalso. apply (HS (String a (String b (String c ""))) s eq_refl). apply utf8_3_spec in E3. apply sq3; tauto. }
  destruct s as [|d s]; [reflexivity|].
  destruct (utf8_4 a b c d) eqn:E4; [|reflexivity].
  exfalso. apply (HS (String a (String b (String c (String d "")))) s eq_refl). apply utf8_4_spec in E4. apply sq4; tauto.
Qed.
Lemma seq_high a r t : seq (String a r) -> (128 <= N_of_ascii a)%N -> one (String a r ++ t) (String a r) t.
Proof.
  intros H HA. destruct (seq_character _ H) as [n HN].
  assert (128 <= n)%N by (inversion HN; subst; leads; lia). apply (one_char _ n); auto; lia.
Qed.
Lemma jchar_sound s b r : jchar s = Some (Some b, r) -> one s b r.
Proof.
  intros H. destruct s as [|a s]; [discriminate H|].
  destruct (Ascii.eqb_spec a dquote) as [->|N1]; [discriminate H|].
  destruct (Ascii.eqb_spec a backslash) as [->|N2].
  { destruct s as [|e s]; [discriminate H|]. cbn [jchar] in H. change (Ascii.eqb backslash dquote) with false in H. rewrite Ascii.eqb_refl in H.
    destruct (Ascii.eqb e dquote || Ascii.eqb e backslash || Ascii.eqb e "/")%bool eqn:E.
    { injection H as <- <-. apply one_escape. rewrite !orb_true_iff, !Ascii.eqb_eq in E. unfold escapes. simpl.
      destruct E as [[->| ->]| ->]; auto. }
    destruct (Ascii.eqb_spec e "b") as [->|]; [injection H as <- <-; apply one_escape; simpl; auto 10|].
    destruct (Ascii.eqb_spec e "f") as [->|]; [injection H as <- <-; apply one_escape; simpl; auto 10|].
    destruct (Ascii.eqb_spec e "n") as [->|]; [injection H as <- <-; apply one_escape; simpl; auto 10|].
    destruct (Ascii.eqb_spec e "r") as [->|]; [injection H as <- <-; apply one_escape; simpl; auto 10|].
    destruct (Ascii.eqb_spec e "t") as [->|]; [injection H as <- <-; apply one_escape; simpl; auto 10|].
    destruct (Ascii.eqb_spec e "u") as [->|]; [|discriminate H].
    destruct (junicode s) as [[t r2]|] eqn:J; [|discriminate H]. injection H as <- <-. apply junicode_sound. exact J. }
  cbn [jchar] in H. apply Ascii.eqb_neq in N1, N2. rewrite N1, N2 in H. apply Ascii.eqb_neq in N1, N2.
  rewrite dquote_n in N1. rewrite backslash_n in N2.
  destruct (N.ltb_spec (nb a) 32) as [L|L]; [discriminate H|].
  destruct (N.ltb_spec (nb a) 128) as [G|G].
  { injection H as <- <-. change (String a s) with (String a "" ++ s)%string. eapply one_char; [apply ascii_character; exact G|..]; auto. }
  unfold nb in G.
  assert (BAD : (forall c r, String a s = (c ++ r)%string -> ~ seq c) -> one (String a s) replacement s).
  { intros X. apply one_bad. intros c n t E Y. apply (X c t E). eapply character_seq. exact Y. }
  destruct s as [|b1 s1].
  { injection H as <- <-. apply BAD. intros c t E X. inversion X; subst; injection E; intros; subst; try discriminate. leads. lia. }
  destruct (utf8_2 a b1) eqn:E2.
  { injection H as <- <-. apply utf8_2_spec in E2. change (String a (String b1 s1)) with (String a (String b1 "") ++ s1)%string.
    apply seq_high; [apply sq2; tauto|exact G]. }
  assert (X2 : ~ seq (String a (String b1 ""))).
  { intros X. inversion X; subst. rewrite (proj2 (utf8_2_spec a b1)) in E2 by auto. discriminate E2. }
  destruct s1 as [|b2 s2].
  { injection H as <- <-. apply BAD. intros c t E X. destruct X; injection E; intros; subst; try discriminate.
    - leads. lia.
    - apply X2. apply sq2; assumption. }
  destruct (utf8_3 a b1 b2) eqn:E3.
  { injection H as <- <-. apply utf8_3_spec in E3. change (String a (String b1 (String b2 s2))) with (String a (String b1 (String b2 "")) ++ s2)%string.
    apply seq_high; [apply sq3; tauto|exact G]. }
  assert (X3 : ~ seq (String a (String b1 (String b2 "")))).
  { intros X. inversion X; subst. rewrite (proj2 (utf8_3_spec a b1 b2)) in E3 by auto. discriminate E3. }
  destruct s2 as [|b3 s3].
  { injection H as <- <-. apply BAD. intros c t E X. destruct X; injection E; intros; subst; try discriminate.
    - leads. lia.
    - apply X2. apply sq2; assumption.
    - apply X3. apply sq3; assumption. }
  destruct (utf8_4 a b1 b2 b3) eqn:E4.
  { injection H as <- <-. apply utf8_4_spec in E4.
    change (String a (String b1 (String b2 (String b3 s3)))) with (String a (String b1 (String b2 (String b3 ""))) ++ s3)%string.
    apply seq_high; [apply sq4; tauto|exact G]. }
  injection H as <- <-. apply BAD. intros c t E X. destruct X; injection E; intros; subst.
  - leads. lia.
  - apply X2. apply sq2; assumption.
  - apply X3. apply sq3; assumption.
  - rewrite (proj2 (utf8_4_spec _ _ _ _)) in E4 by auto. discriminate E4.
Qed.
Lemma hex4_read h n s : hex4 h n -> hex4_val (h ++ s) = Some (n, s).
Proof. intros H. apply hex4_val_iff. eauto. Qed.
Lemma character_not_surrogate c n : character c n -> ~ surrogate n.
Proof. intros H. destruct H; leads; lia. Qed.
Lemma jchar_u s : jchar (String "092" (String "u" s)) = match junicode s with Some (t, r) => Some (Some t, r) | None => None end.
Proof. reflexivity. Qed.
Lemma jchar_complete s b r : one s b r -> jchar s = Some (Some b, r).
Proof.
  intros H. destruct H as [c n s HC H1 H2 H3|a s HB|e b s HI|h n c s Hh HC|h1 n1 h2 n2 c s Hh1 Hn1 Hh2 Hn2 HC|h n s Hh HS HL].
  - apply (seq_jchar c n); assumption.
  - apply bad_jchar. assumption.
  - unfold escapes in HI. simpl in HI. repeat (destruct HI as [HI|HI]; [injection HI as <- <-; reflexivity|]). destruct HI.
  - rewrite u_escape_eq. change backslash with "092"%char. rewrite jchar_u. unfold junicode. rewrite (hex4_read h n) by assumption.
    pose proof (character_not_surrogate c n HC) as HN.
    destruct (is_high n) eqn:E1; [exfalso; apply HN, surrogate_iff; left; apply high_iff; exact E1|].
    destruct (is_low n) eqn:E2; [exfalso; apply HN, surrogate_iff; right; apply low_iff; exact E2|].
    rewrite <- (character_bytes c n HC). reflexivity.
  - rewrite u_escape_eq. change backslash with "092"%char. rewrite jchar_u. unfold junicode. rewrite (hex4_read h1 n1) by assumption.
    rewrite (proj2 (high_iff n1)) by assumption. rewrite u_escape_eq. rewrite !Ascii.eqb_refl. cbn [andb].
    rewrite (hex4_read h2 n2) by assumption. rewrite (proj2 (low_iff n2)) by assumption.
    rewrite <- (character_bytes c _ HC). reflexivity.
  - rewrite u_escape_eq. change backslash with "092"%char. rewrite jchar_u. unfold junicode. rewrite (hex4_read h n) by assumption.
    destruct (is_high n) eqn:E1.
    + apply high_iff in E1. specialize (HL E1). destruct s as [|b [|u r1]]; [reflexivity..|].
      destruct (Ascii.eqb b backslash && Ascii.eqb u "u")%bool eqn:E2; [|reflexivity].
      apply andb_true_iff in E2. destruct E2 as [E2 E3]. apply Ascii.eqb_eq in E2, E3. subst b u.
      destruct (hex4_val r1) as [[m r2]|] eqn:E4; [|reflexivity]. destruct (is_low m) eqn:E5; [|reflexivity].
      exfalso. apply hex4_val_iff in E4. destruct E4 as (h2 & H2 & ->). apply (HL h2 m r2); auto. apply low_iff. exact E5.
    + apply surrogate_iff in HS. destruct HS as [HS|HS]; [apply high_iff in HS; congruence|].
      rewrite (proj2 (low_iff n)) by assumption. reflexivity.
Qed.
Lemma jchar_quote s r : jchar s = Some (None, r) <-> s = String dquote r.
Proof.
  split; [|intros ->; reflexivity]. intros H. destruct s as [|a s]; [discriminate H|]. cbn [jchar] in H.
  destruct (Ascii.eqb_spec a dquote) as [->|N1]; [injection H as <-; reflexivity|]. exfalso.
  repeat (match type of H with context [if ?b then _ else _] => destruct b | context [match ?x with _ => _ end] => destruct x end; try discriminate H).
Qed.

(** ** String literals *)
Lemma one_chars s b x t : one s b x -> chars x t -> chars s (b ++ t).
Proof.
  intros H HC. destruct H.
  - eapply ch_char; eauto.
  - apply ch_bad; assumption.
  - apply (ch_escape e b s t); assumption.
  - eapply ch_unicode; eauto.
  - eapply ch_pair; eauto.
  - eapply ch_lone; eauto.
Qed.
Lemma chars_one s t : chars s t -> s = "" /\ t = "" \/ exists b x t', one s b x /\ chars x t' /\ t = (b ++ t')%string.
Proof.
  intros H. destruct H; [left; auto|right..].
  - exists c, s, t. repeat split; auto. eapply one_char; eauto.
  - exists fffd, s, t. repeat split; auto. apply one_bad; assumption.
  - exists (String b ""), s, t. repeat split; auto. apply one_escape; assumption.
  - exists c, s, t. repeat split; auto. eapply one_unicode; eauto.
  - exists c, s, t. repeat split; auto. eapply one_pair; eauto.
  - exists fffd, s, t. repeat split; auto. eapply one_lone; eauto.
Qed.
Lemma u_escape_app h s t : (u_escape h s ++ t = u_escape h (s ++ t))%string.
Proof. rewrite !u_escape_eq. cbn [append]. rewrite app_assoc_s. reflexivity. Qed.
Lemma one_cut s b x y : one s b (x ++ y) -> exists z, s = (z ++ y)%string /\ one z b x.
Proof.
  intros H. remember (x ++ y)%string as w eqn:E. destruct H; subst.
  - exists (c ++ x)%string. rewrite app_assoc_s. split; auto. eapply one_char; eauto.
  - exists (String a x). split; auto. apply one_bad. intros c n r E. apply (H c n (r ++ y)). rewrite <- app_assoc_s, <- E. reflexivity.
  - exists (String "092" (String e x)). split; auto. apply one_escape. assumption.
  - exists (u_escape h x). rewrite u_escape_app. split; auto. eapply one_unicode; eauto.
  - exists (u_escape h1 (u_escape h2 x)). rewrite !u_escape_app. split; auto. eapply one_pair; eauto.
  - exists (u_escape h x). rewrite u_escape_app. split; auto. eapply one_lone; eauto. intros X h2 n2 r E2. 
    apply (H1 X h2 n2 (r ++ y)). rewrite E2. apply u_escape_app.
Qed.
Lemma hex_not_quote a n : hex_digit a n -> a <> dquote.
Proof. intros H E. apply hex_val_digit in H. subst a. discriminate H. Qed.
Lemma lead_not_quote a x : lead 0x80 a x -> a <> dquote.
Proof. unfold lead. intros H E. apply dquote_n in E. lia. Qed.
Lemma one_extend z b x r : one z b x -> one (z ++ String dquote r) b (x ++ String dquote r).
Proof.
  intros H. destruct H.
  - rewrite app_assoc_s. eapply one_char; eauto.
  - cbn [append]. apply one_bad. intros c n r' E HC.
    assert (exists q, String a s = (c ++ q)%string) as [q Hq]; [|exact (H c n q Hq HC)].
    destruct HC as [a0 n A B|a0 b x y n A Ax B By E1 L|a0 b c x y z n A Ax B By C Cz E1 L S|a0 b c d x y z u n A Ax B By C Cz D Du E1 L]; cbn [append] in E; injection E as -> E.
    + exists s. reflexivity.
    + destruct s as [|s0 s]; cbn [append] in E; injection E as E2 E; [destruct (lead_not_quote _ _ B); congruence|subst]. eexists. reflexivity.
    + destruct s as [|s0 s]; cbn [append] in E; injection E as E2 E; [destruct (lead_not_quote _ _ B); congruence|subst].
      destruct s as [|s1 s]; cbn [append] in E; injection E as E2 E; [destruct (lead_not_quote _ _ C); congruence|subst]. eexists. reflexivity.
    + destruct s as [|s0 s]; cbn [append] in E; injection E as E2 E; [destruct (lead_not_quote _ _ B); congruence|subst].
      destruct s as [|s1 s]; cbn [append] in E; injection E as E2 E; [destruct (lead_not_quote _ _ C); congruence|subst].
      destruct s as [|s2 s]; cbn [append] in E; injection E as E2 E; [destruct (lead_not_quote _ _ D); congruence|subst]. eexists. reflexivity.
  - cbn [append]. apply one_escape. assumption.
  - rewrite u_escape_app. eapply one_unicode; eauto.
  - rewrite !u_escape_app. eapply one_pair; eauto.
  - rewrite u_escape_app. eapply one_lone; eauto. intros X h2 n2 r' E HX.
    assert (exists q, s = u_escape h2 q) as [q Hq]; [|exact (H1 X h2 n2 q Hq HX)].
    destruct HX as [a0 a1 a2 a3 w0 w1 w2 w3 A0 A1 A2 A3]. rewrite u_escape_eq in E. cbn [append] in E.
    destruct s as [|s0 s]; cbn [append] in E; [discriminate E|injection E as -> E].
    destruct s as [|s0 s]; cbn [append] in E; [discriminate E|injection E as -> E].
    destruct s as [|s0 s]; cbn [append] in E; [injection E as E _; destruct (hex_not_quote _ _ A0); congruence|injection E as -> E].
    destruct s as [|s0 s]; cbn [append] in E; [injection E as E _; destruct (hex_not_quote _ _ A1); congruence|injection E as -> E].
    destruct s as [|s0 s]; cbn [append] in E; [injection E as E _; destruct (hex_not_quote _ _ A2); congruence|injection E as -> E].
    destruct s as [|s0 s]; cbn [append] in E; [injection E as E _; destruct (hex_not_quote _ _ A3); congruence|injection E as -> E].
    exists s. reflexivity.
Qed.
Lemma character_length c n : character c n -> (1 <= String.length c)%nat.
Proof. intros H. destruct H; cbn; lia. Qed.
Lemma one_length z b x : one z b x -> (String.length x < String.length z)%nat.
Proof.
  intros H. destruct H; rewrite ?u_escape_eq; cbn; rewrite ?length_app; cbn; rewrite ?length_app; try lia.
  pose proof (character_length c n H). lia.
Qed.
Lemma jstr_sound n : forall s t r, jstr n s = Some (t, r) -> exists x, s = (x ++ String dquote r)%string /\ chars x t.
Proof.
  induction n as [|n IH]; intros s t r H; [discriminate H|]. cbn [jstr] in H.
  destruct (jchar s) as [[[b|] r1]|] eqn:E; [| |discriminate H].
  - destruct (jstr n r1) as [[t1 r2]|] eqn:E1; [|discriminate H]. injection H as <- <-.
    apply IH in E1. destruct E1 as (x & -> & HX). apply jchar_sound in E. apply one_cut in E. destruct E as (z & -> & HZ).
    exists z. split; auto. eapply one_chars; eauto.
  - injection H as <- <-. apply jchar_quote in E. subst s. exists "". split; [reflexivity|constructor].
Qed.
Lemma jstr_complete x : forall t r n, chars x t -> (String.length x < n)%nat -> jstr n (x ++ String dquote r) = Some (t, r).
Proof.
  induction x as [x IH] using str_strong. intros t r n HC HN. destruct n as [|n]; [lia|].
  apply chars_one in HC. destruct HC as [[-> ->]|(b & y & t' & HO & HC & ->)]; [reflexivity|].
  pose proof (one_length _ _ _ HO) as HL. rewrite (jstr_step n _ b (y ++ String dquote r)).
  - rewrite (IH y HL t' r n HC) by lia. reflexivity.
  - apply jchar_complete. apply one_extend. exact HO.
Qed.
Lemma jliteral_iff s t r : jliteral s = Some (t, r) <-> exists x, s = (x ++ String dquote r)%string /\ chars x t.
Proof.
  split; [apply jstr_sound|]. intros (x & -> & HC). unfold jliteral. apply jstr_complete; auto. rewrite length_app. lia.
Qed.
Lemma chars_unique x t t' : chars x t -> chars x t' -> t = t'.
Proof.
  intros H H'. pose proof (jstr_complete x t "" (S (String.length x)) H ltac:(lia)) as E.
  pose proof (jstr_complete x t' "" (S (String.length x)) H' ltac:(lia)) as E'. congruence.
Qed.

(** ** White space *)
Lemma ws_cons a s : ws (String a s) <-> In a ["032"; "009"; "010"; "013"]%char /\ ws s.
Proof. unfold ws. cbn [list_ascii_of_string]. rewrite Forall_cons_iff. tauto. Qed.
Lemma ws_app s t : ws s -> ws t -> ws (s ++ t).
Proof. induction s as [|a s IH]; [auto|]. cbn [append]. rewrite !ws_cons. tauto. Qed.
Lemma ws_byte a : In a ["032"; "009"; "010"; "013"]%char <->
  (N.eqb (nb a) 32 || N.eqb (nb a) 9 || N.eqb (nb a) 10 || N.eqb (nb a) 13)%bool = true.
Proof.
  split.
  - intros H. simpl in H. repeat (destruct H as [<-|H]; [reflexivity|]). destruct H.
  - intros H. bytes a; try discriminate H; simpl; auto.
Qed.
Definition not_ws (s : string) : Prop := forall a r, s = String a r -> ~ In a ["032"; "009"; "010"; "013"]%char.
Lemma jskip_cut s : exists w, s = (w ++ jskip s)%string /\ ws w /\ not_ws (jskip s).
Proof.
  induction s as [|a s (w & E & W & X)].
  - exists "". repeat split; [constructor|]. intros a r E. discriminate E.
  - cbn [jskip]. cbv zeta. destruct (N.eqb (nb a) 32 || N.eqb (nb a) 9 || N.eqb (nb a) 10 || N.eqb (nb a) 13)%bool eqn:B.
    + exists (String a w). cbn [append]. rewrite <- E. split; [reflexivity|]. split; [|exact X]. apply ws_cons. split; auto. apply ws_byte. exact B.
    + exists "". split; [reflexivity|]. split; [constructor|]. intros b r E2. injection E2 as <- <-. rewrite ws_byte. congruence.
Qed.
Lemma jskip_app w s : ws w -> not_ws s -> jskip (w ++ s) = s.
Proof.
  intros W X. induction w as [|a w IH]; cbn [append].
  - destruct s as [|a r]; [reflexivity|]. cbn [jskip]. cbv zeta. specialize (X a r eq_refl). rewrite ws_byte in X.
    destruct (N.eqb (nb a) 32 || N.eqb (nb a) 9 || N.eqb (nb a) 10 || N.eqb (nb a) 13)%bool; [destruct X|]; reflexivity.
  - apply ws_cons in W. destruct W as [A W]. apply ws_byte in A. cbn [jskip]. cbv zeta. rewrite A. apply IH. exact W.
Qed.
Lemma jskip_ws w : ws w -> jskip w = "".
Proof.
  intros W. rewrite <- (app_nil_r_s w). apply jskip_app; auto. intros a r E. discriminate E.
Qed.
