(** * Facts about reading tokens: lenient base64url, header and claims. *)
From Coq Require Import Lia.
From Verif Require Import GoStr Codec StrFacts Json JsonParse JsonFacts UtilsFacts JsonFull Core Utils Spec TokenSpec CodecSpec Jwt JwtSpec JwtFacts.
From Verif Require JsonSpec JsonRead.

Definition sbits (s : sextet) : list bool := [x5 s; x4 s; x3 s; x2 s; x1 s; x0 s].
Lemma char_code_1 c s : char_sx B64Url c = Some s -> nth_error b64url_alphabet (bits_value (sbits s)) = Some c.
Proof. bytes c; intros H; vm_compute in H; try discriminate H; injection H as <-; vm_compute; reflexivity. Qed.
Lemma char_code_2 c s : nth_error b64url_alphabet (bits_value (sbits s)) = Some c -> char_sx B64Url c = Some s.
Proof.
  destruct s as [a5 a4 a3 a2 a1 a0]. destruct a5, a4, a3, a2, a1, a0; intros H; vm_compute in H; injection H as <-; vm_compute; reflexivity.
Qed.
Lemma six_sbits g : List.length g = 6%nat -> exists s, g = sbits s.
Proof.
  destruct g as [|a [|b [|c [|d [|e [|f [|]]]]]]]; try discriminate. intros _. exists (Sx a b c d e f). reflexivity.
Qed.
Definition stands (c : ascii) (g : list bool) : Prop := List.length g = 6%nat /\ nth_error b64url_alphabet (bits_value g) = Some c.
Lemma stands_iff l groups : Forall2 stands l groups <-> exists ss, groups = map sbits ss /\ Forall2 (fun c s => char_sx B64Url c = Some s) l ss.
Proof.
  split.
  - induction 1 as [|c g l gs [H1 H2] _ (ss & -> & IH)]; [exists []; split; constructor|].
    destruct (six_sbits g H1) as (s & ->). exists (s :: ss). split; [reflexivity|]. constructor; [apply char_code_2; exact H2|exact IH].
  - intros (ss & -> & H). induction H as [|c s l ss H _ IH]; [constructor|]. constructor; [|exact IH]. split; [reflexivity|]. apply char_code_1. exact H.
Qed.

Fixpoint bytes_of (ss : list sextet) : option string :=
  match ss with
  | [] => Some ""
  | [p; q] => Some (String (byte_a p q) "")
  | [p; q; r] => Some (String (byte_a p q) (String (byte_b q r) ""))
  | p :: q :: r :: t :: ss' =>
      match bytes_of ss' with Some rest => Some (String (byte_a p q) (String (byte_b q r) (String (byte_c r t) rest))) | None => None end
  | _ => None
  end.
Lemma quanta_bytes n : forall s, (String.length s <= n)%nat -> forall out,
  raw_quanta s = Some out <-> exists ss, Forall2 (fun c x => char_sx B64Url c = Some x) (list_ascii_of_string s) ss /\ bytes_of ss = Some out.
Proof.
  induction n as [|n IH]; intros s HL out.
  { destruct s; [|cbn in HL; lia]. cbn. split; [intros H; exists []; split; [constructor|exact H]|intros (ss & H & E); inversion H; subst; exact E]. }
  destruct s as [|a [|b [|c [|d s]]]].
  - cbn. split; [intros H; exists []; split; [constructor|exact H]|intros (ss & H & E); inversion H; subst; exact E].
  - cbn. split; [discriminate|]. intros (ss & H & E). inversion H as [|? ? ? ? _ H1]; subst. inversion H1; subst. discriminate E.
  - cbn [raw_quanta list_ascii_of_string]. split.
    + destruct (char_sx B64Url a) as [p|] eqn:E1; [|discriminate]. destruct (char_sx B64Url b) as [q|] eqn:E2; [|discriminate].
      intros H. exists [p; q]. split; [repeat constructor; assumption|exact H].
    + intros (ss & H & E). inversion H as [|? p ? ? E1 H1]; subst. inversion H1 as [|? q ? ? E2 H2]; subst. inversion H2; subst.
      rewrite E1, E2. exact E.
  - cbn [raw_quanta list_ascii_of_string]. split.
    + destruct (char_sx B64Url a) as [p|] eqn:E1; [|discriminate]. destruct (char_sx B64Url b) as [q|] eqn:E2; [|discriminate].
      destruct (char_sx B64Url c) as [r|] eqn:E3; [|discriminate].
      intros H. exists [p; q; r]. split; [repeat constructor; assumption|exact H].
    + intros (ss & H & E). inversion H as [|? p ? ? E1 H1]; subst. inversion H1 as [|? q ? ? E2 H2]; subst. inversion H2 as [|? r ? ? E3 H3]; subst.
      inversion H3; subst. rewrite E1, E2, E3. exact E.
  - cbn [raw_quanta list_ascii_of_string]. assert (HL' : (String.length s <= n)%nat) by (cbn in HL; lia). split.
    + destruct (char_sx B64Url a) as [p|] eqn:E1; [|discriminate]. destruct (char_sx B64Url b) as [q|] eqn:E2; [|discriminate].
      destruct (char_sx B64Url c) as [r|] eqn:E3; [|discriminate]. destruct (char_sx B64Url d) as [t|] eqn:E4; [|discriminate].
      destruct (raw_quanta s) as [rest|] eqn:E5; [|discriminate]. intros H. destruct (proj1 (IH s HL' rest) E5) as (ss & H1 & H2).
      exists (p :: q :: r :: t :: ss). split; [repeat (constructor; [assumption|]); exact H1|]. cbn [bytes_of]. rewrite H2. destruct ss as [|? [|? [|]]]; exact H.
    + intros (ss & H & E). inversion H as [|? p ? ? E1 H1]; subst. inversion H1 as [|? q ? ? E2 H2]; subst. inversion H2 as [|? r ? ? E3 H3]; subst.
      inversion H3 as [|? t ? ss' E4 H4]; subst. rewrite E1, E2, E3, E4. cbn [bytes_of] in E.
      destruct (bytes_of ss') as [rest|] eqn:E5; [|destruct ss' as [|? [|? [|]]]; discriminate].
      rewrite (proj2 (IH s HL' rest) (ex_intro _ ss' (conj H4 E5))). exact E.
Qed.

Definition all_bits (s : string) : list bool := flat_map byte_bits (list_ascii_of_string s).
Lemma all_bits_length s : List.length (all_bits s) = (8 * String.length s)%nat.
Proof. induction s as [|a s IH]; [reflexivity|]. unfold all_bits in *. cbn [list_ascii_of_string flat_map String.length]. rewrite app_length, IH. destruct a. cbn. lia. Qed.
Lemma all_bits_inj s : forall t r r', String.length s = String.length t -> (all_bits s ++ r = all_bits t ++ r')%list -> s = t.
Proof.
  induction s as [|a s IH]; intros [|b t] r r' HL H; try discriminate HL; [reflexivity|].
  unfold all_bits in *. cbn [list_ascii_of_string flat_map] in H. rewrite <- !app_assoc in H. destruct a, b. cbn [byte_bits List.app] in H.
  injection H as <- <- <- <- <- <- <- <- H. f_equal. eapply IH; [injection HL as HL; exact HL|exact H].
Qed.
Lemma bytes_bits n : forall ss, (List.length ss <= n)%nat -> forall out, bytes_of ss = Some out ->
  exists rest, List.concat (map sbits ss) = (all_bits out ++ rest)%list /\ (List.length rest < 6)%nat.
Proof.
  induction n as [|n IH]; intros ss HL out H.
  { destruct ss; [|cbn in HL; lia]. injection H as <-. exists []. split; [reflexivity|cbn; lia]. }
  destruct ss as [|p [|q [|r [|t ss]]]].
  - injection H as <-. exists []. split; [reflexivity|cbn; lia].
  - discriminate H.
  - injection H as <-. destruct p, q. eexists [_; _; _; _]. split; [reflexivity|cbn; lia].
  - injection H as <-. destruct p, q, r. eexists [_; _]. split; [reflexivity|cbn; lia].
  - cbn [bytes_of] in H. destruct (bytes_of ss) as [o|] eqn:E; [|destruct ss as [|? [|? [|]]]; discriminate H].
    assert (X : out = String (byte_a p q) (String (byte_b q r) (String (byte_c r t) o))) by (destruct ss as [|? [|? [|]]]; injection H as <-; reflexivity).
    subst out. destruct (IH ss ltac:(cbn in HL; lia) o E) as (rest & H1 & H2). exists rest. split; [|exact H2].
    cbn [map List.concat]. rewrite H1. destruct p, q, r, t. reflexivity.
Qed.
Lemma bytes_some n : forall ss, (List.length ss <= n)%nat -> (List.length ss mod 4 <> 1)%nat -> exists out, bytes_of ss = Some out.
Proof.
  induction n as [|n IH]; intros ss HL H. { destruct ss; [|cbn in HL; lia]. cbn. eauto. }
  destruct ss as [|p [|q [|r [|t ss]]]]; cbn; eauto; [exfalso; apply H; reflexivity|].
  destruct (IH ss) as (o & E); [cbn in HL; lia| |].
  { intros X. apply H. cbn [List.length]. replace (S (S (S (S (List.length ss))))) with (List.length ss + 1 * 4)%nat by lia. rewrite Nat.mod_add by lia. exact X. }
  rewrite E. destruct ss as [|? [|? [|]]]; eauto.
Qed.
Lemma sbits_length ss : List.length (List.concat (map sbits ss)) = (6 * List.length ss)%nat.
Proof. induction ss as [|s ss IH]; [reflexivity|]. cbn [map List.concat List.length]. rewrite app_length, IH. cbn. lia. Qed.
Lemma bytes_iff ss out : bytes_of ss = Some out <-> exists rest, List.concat (map sbits ss) = (all_bits out ++ rest)%list /\ (List.length rest < 6)%nat.
Proof.
  split; [apply (bytes_bits (List.length ss)); lia|]. intros (rest & H1 & H2).
  assert (L : (6 * List.length ss = 8 * String.length out + List.length rest)%nat) by (rewrite <- sbits_length, H1, app_length, all_bits_length; reflexivity).
  destruct (bytes_some (List.length ss) ss (le_n _)) as (o & E).
  { intros X. pose proof (Nat.div_mod (List.length ss) 4 ltac:(lia)). rewrite X in H. lia. }
  rewrite E. f_equal. destruct (bytes_bits _ ss (le_n _) o E) as (rest' & H3 & H4).
  assert (L' : (6 * List.length ss = 8 * String.length o + List.length rest')%nat) by (rewrite <- sbits_length, H3, app_length, all_bits_length; reflexivity).
  eapply all_bits_inj; [|rewrite <- H3; exact H1]. lia.
Qed.

Lemma strip_filter s : list_ascii_of_string (strip_nl s) = filter (fun a => negb (line_break a)) (list_ascii_of_string s).
Proof.
  induction s as [|a s IH]; [reflexivity|]. cbn [strip_nl list_ascii_of_string filter].
  assert (E : (N.eqb (N_of_ascii a) 10 || N.eqb (N_of_ascii a) 13)%bool = line_break a) by (bytes a; reflexivity).
  rewrite E. destruct (line_break a); cbn; rewrite IH; reflexivity.
Qed.
Lemma raw_decode_iff s out : raw_decode s = Some out <-> base64url_of s out.
Proof.
  unfold raw_decode, base64url_of. rewrite (quanta_bytes (String.length (strip_nl s)) _ (le_n _)), <- strip_filter. split.
  - intros (ss & H & E). apply bytes_iff in E. destruct E as (rest & H1 & H2). exists (map sbits ss), rest. split; [|split; [exact H1|exact H2]].
    apply stands_iff. exists ss. split; [reflexivity|exact H].
  - intros (groups & rest & H & H1 & H2). apply stands_iff in H. destruct H as (ss & -> & H). exists ss. split; [exact H|]. apply bytes_iff. exists rest. split; [exact H1|exact H2].
Qed.

(** ** Members *)
Lemma jget_app (m1 m2 : jmap) k : jget k (m1 ++ m2)%list = match jget k m1 with Some v => Some v | None => jget k m2 end.
Proof. induction m1 as [|[k' v] m1 IH]; [reflexivity|]. cbn. destruct (seqb k k'); [reflexivity|exact IH]. Qed.
Lemma member_cons k0 v0 l k v : member ((k0, v0) :: l) k v <-> member l k v \/ k = k0 /\ v = v0 /\ ~ In k (map fst l).
Proof.
  split.
  - intros ([|z l1] & l2 & E & HN); injection E as E1 E2; subst; [right; auto|]. left. exists l1, l2. auto.
  - intros [(l1 & l2 & -> & HN)|(-> & -> & HN)]; [exists ((k0, v0) :: l1), l2; auto|exists [], l; auto].
Qed.
Lemma member_in l k v : member l k v -> In k (map fst l).
Proof. intros (l1 & l2 & -> & _). rewrite map_app. apply in_app_iff. right. left. reflexivity. Qed.
Lemma member_unique l : forall k v v', member l k v -> member l k v' -> v = v'.
Proof.
  induction l as [|[k0 v0] l IH]; intros k v v' H1 H2; [apply member_in in H1; destruct H1|].
  apply member_cons in H1, H2. destruct H1 as [H1|(-> & -> & H1)], H2 as [H2|(E & -> & H2)]; subst; eauto.
  - apply member_in in H1. contradiction.
  - apply member_in in H2. contradiction.
Qed.
Lemma as_jmap_in l k : In k (map fst l) <-> jget k (rev (map (fun p : string * fval => (fst p, as_jval (snd p))) l)) <> None.
Proof.
  induction l as [|[k0 v0] l IH]; [cbn; tauto|]. cbn [map rev fst snd In]. rewrite jget_app.
  destruct (jget k (rev _)) as [y|] eqn:E; [split; [discriminate|intros _; right; apply IH; discriminate]|]. cbn. destruct (seqb k k0) eqn:E0.
  - apply seqb_eq in E0. subst. split; [discriminate|auto].
  - split; [|congruence]. intros [H|H]; [|apply IH in H; congruence]. subst. assert (seqb k k = true) by (apply seqb_eq; reflexivity). congruence.
Qed.
Lemma member_jget l : forall k x, jget k (rev (map (fun p : string * fval => (fst p, as_jval (snd p))) l)) = Some x <-> exists v, member l k v /\ x = as_jval v.
Proof.
  induction l as [|[k0 v0] l IH]; intros k x.
  - cbn. split; [discriminate|]. intros (v & H & _). apply member_in in H. destruct H.
  - cbn [map rev fst snd]. rewrite jget_app. pose proof (as_jmap_in l k) as HI. destruct (jget k (rev _)) as [y|] eqn:E.
    + pose proof (proj1 (IH k y) E) as (v & HM & ->). split.
      * intros H. injection H as <-. exists v. split; [apply member_cons; left; exact HM|reflexivity].
      * intros (v' & HM' & ->). apply member_cons in HM'. destruct HM' as [HM'|(_ & _ & HM')]; [|apply member_in in HM; contradiction].
        rewrite (member_unique _ _ _ _ HM HM'). reflexivity.
    + cbn. destruct (seqb k k0) eqn:E0.
      * apply seqb_eq in E0. subst k0. split.
        -- intros H. injection H as <-. exists v0. split; [|reflexivity]. apply member_cons. right. split; [reflexivity|]. split; [reflexivity|]. tauto.
        -- intros (v & HM & ->). apply member_cons in HM. destruct HM as [HM|(_ & -> & _)]; [|reflexivity]. apply member_in in HM. exfalso. apply HI in HM. congruence.
      * split; [discriminate|]. intros (v & HM & _). apply member_cons in HM. destruct HM as [HM|(-> & _)]; [apply member_in in HM; exfalso; apply HI in HM; congruence|].
        assert (seqb k0 k0 = true) by (apply seqb_eq; reflexivity). congruence.
Qed.
Lemma member_none l k : jget k (rev (map (fun p : string * fval => (fst p, as_jval (snd p))) l)) = None <-> forall v, ~ member l k v.
Proof.
  destruct (jget k _) as [x|] eqn:E.
  - apply member_jget in E. destruct E as (v & HM & _). split; [discriminate|]. intros H. contradiction (H v HM).
  - split; [|reflexivity]. intros _ v HM. apply member_in in HM. apply as_jmap_in in HM. congruence.
Qed.

Definition to_jmap (l : list (string * fval)) : jmap := rev (map (fun p => (fst p, as_jval (snd p))) l).
Lemma jstr_member l k s : jstr k (to_jmap l) = Some s <-> member l k (FStr s).
Proof.
  unfold jstr, to_jmap. destruct (jget k _) as [x|] eqn:E.
  - apply member_jget in E. destruct E as (v & HM & ->). split.
    + destruct v; cbn; try discriminate. intros H. injection H as <-. exact HM.
    + intros HM'. rewrite (member_unique _ _ _ _ HM HM'). reflexivity.
  - pose proof (proj1 (member_none l k) E) as HN. split; [discriminate|]. intros H. contradiction (HN _ H).
Qed.
Lemma text_jstr l k : text_of l k (match jstr k (to_jmap l) with Some s => s | None => "" end).
Proof.
  unfold text_of. destruct (jstr k (to_jmap l)) as [s|] eqn:E; [left; apply jstr_member; exact E|].
  right. split; [reflexivity|]. intros t H. apply jstr_member in H. congruence.
Qed.
Lemma text_fun l k s t : text_of l k s -> text_of l k t -> s = t.
Proof.
  intros [H1|(-> & H1)] [H2|(-> & H2)]; auto; try (exfalso; eauto; fail).
  - pose proof (member_unique _ _ _ _ H1 H2) as E. injection E as E. exact E.
  - contradiction (H2 _ H1).
  - contradiction (H1 _ H2).
Qed.
Lemma time_member l k ok : bad_time ok (jget k (to_jmap l)) = false <->
  forall v, member l k v -> exists z, v = FNum z /\ (z = 0%Z \/ ok z = true).
Proof.
  unfold to_jmap. destruct (jget k _) as [x|] eqn:E.
  - apply member_jget in E. destruct E as (v & HM & ->). split.
    + intros H v' HM'. rewrite <- (member_unique _ _ _ _ HM HM'). clear HM HM'. destruct v as [|b|z|s|a|o]; cbn in H; try discriminate H. exists z. split; [reflexivity|].
      destruct (Z.eqb_spec z 0); [left; auto|]. right. cbn in H. destruct (ok z); [reflexivity|discriminate H].
    + intros H. destruct (H v HM) as (z & -> & HZ). cbn. destruct HZ as [->| ->]; [reflexivity|]. rewrite andb_false_r. reflexivity.
  - cbn. pose proof (proj1 (member_none l k) E) as HN. split; [|reflexivity]. intros _ v H. contradiction (HN _ H).
Qed.
Lemma current_in_time l now : go_claims now (to_jmap l) = CFlags false false false <-> in_time l now.
Proof.
  unfold go_claims, in_time.
  assert (X : forall a b c, CFlags a b c = CFlags false false false <-> a = false /\ b = false /\ c = false)
    by (intros a b c; split; [intros H; injection H; auto|intros (-> & -> & ->); reflexivity]).
  rewrite X, !time_member.
  assert (Y : forall P Q : Z -> Prop, (forall z, P z <-> Q z) -> forall k, (forall v, member l k v -> exists z, v = FNum z /\ (z = 0%Z \/ P z)) <-> (forall v, member l k v -> exists z, v = FNum z /\ (z = 0%Z \/ Q z))).
  { intros P Q HPQ k. split; intros H v HM; destruct (H v HM) as (z & -> & [HZ|HZ]); exists z; split; auto; right; apply HPQ; exact HZ. }
  rewrite (Y (fun z => (now <=? z)%Z = true) (fun z => now <= z)%Z) by (intros; apply Z.leb_le).
  rewrite (Y (fun z => (z <=? now)%Z = true) (fun z => z <= now)%Z) by (intros; apply Z.leb_le).
  rewrite (Y (fun z => (z <=? now)%Z = true) (fun z => z <= now)%Z) by (intros; apply Z.leb_le). reflexivity.
Qed.

Lemma split_three raw h p s : split_on "." raw = [h; p; s] <->
  Forall (fun x => ~ In "."%char (list_ascii_of_string x)) [h; p; s] /\ raw = ((h ++ "." ++ p) ++ "." ++ s)%string.
Proof.
  assert (X : forall x, has_byte "." x = false <-> ~ In "."%char (list_ascii_of_string x)).
  { induction x as [|a x IH]; [cbn; tauto|]. cbn [has_byte list_ascii_of_string In]. rewrite orb_false_iff, IH. rewrite Ascii.eqb_neq. intuition congruence. }
  split.
  - intros H. split.
    + pose proof (split_on_no_sep "." raw) as HC. rewrite H in HC. apply Forall_forall. intros x Hx. apply X. rewrite Forall_forall in HC. apply HC. exact Hx.
    + pose proof (join_split "." raw) as HJ. rewrite H in HJ. cbn in HJ. rewrite <- HJ. rewrite !app_assoc_s. reflexivity.
  - intros (HF & ->). inversion HF as [|? ? H1 HF2]; subst. inversion HF2 as [|? ? H2 HF3]; subst. inversion HF3 as [|? ? H3 _]; subst.
    apply X in H1, H2, H3.
    replace ((h ++ "." ++ p) ++ "." ++ s)%string with (h ++ String "." (p ++ String "." s))%string by (rewrite !app_assoc_s; reflexivity).
    rewrite split_on_app by exact H1. rewrite split_on_app by exact H2. rewrite split_on_atom by exact H3. reflexivity.
Qed.
Lemma verified_jws A raw k t : go_parse raw = PToken t -> go_verify A raw k = true -> jt_claims t <> [] ->
  exists hl cl signed sig alg, jws raw hl cl signed sig /\ jt_header t = to_jmap hl /\ jt_claims t = to_jmap cl /\
    member hl "alg" (FStr alg) /\ genuine A alg k signed sig.
Proof.
  intros HP HV HC. destruct (verify_inv _ _ _ HV) as (h & p & s & t' & alg & x & HS & HP' & HA & HX & HG).
  rewrite HP in HP'. injection HP' as <-. unfold go_parse in HP. rewrite HS in HP.
  destruct (raw_decode h) as [hd|] eqn:EH; [|discriminate HP].
  destruct (unmarshal hd) as [hv|] eqn:EU; [|discriminate HP].
  destruct (as_jmap hv) as [hm|] eqn:EHM; [|discriminate HP].
  destruct (raw_decode p) as [pd|] eqn:EP; [|discriminate HP].
  destruct (decode_one pd) as [cv|] eqn:ED; [|discriminate HP].
  destruct (as_jmap cv) as [cm|] eqn:ECM; [|discriminate HP].
  destruct (jstr "alg" hm) as [alg'|] eqn:EA; [|discriminate HP]. destruct (known_alg alg'); [|discriminate HP]. injection HP as <-.
  cbn in HA, HC. rewrite HA in EA. injection EA as <-.
  destruct hv as [|b|z|y|a|hl]; try discriminate EHM; injection EHM as <-; [discriminate HA|].
  destruct cv as [|b|z|y|a|cl]; try discriminate ECM; injection ECM as <-; [contradiction HC; reflexivity|].
  exists hl, cl, (h ++ "." ++ p)%string, x, alg. apply split_three in HS. destruct HS as (HF & HR).
  split; [|split; [reflexivity|]; split; [reflexivity|]; split; [apply jstr_member; exact HA|exact HG]].
  exists h, p, s, hd, pd. split; [exact HF|]. split; [reflexivity|]. split; [exact HR|]. rewrite <- !raw_decode_iff.
  apply JsonRead.unmarshal_iff in EU. apply JsonRead.decode_object_iff in ED. auto 6.
Qed.
Lemma jws_verified A raw k hl cl signed sig alg : jws raw hl cl signed sig -> member hl "alg" (FStr alg) -> genuine A alg k signed sig ->
  go_parse raw = PToken (JToken (to_jmap hl) (to_jmap cl)) /\ go_verify A raw k = true.
Proof.
  intros (h & p & s & hd & pd & HF & -> & HR & H1 & H2 & H3 & H4 & H5) HA HG.
  assert (HS : split_on "." raw = [h; p; s]) by (apply split_three; auto). rewrite <- raw_decode_iff in H1, H2, H3. apply jstr_member in HA.
  apply JsonRead.unmarshal_iff in H4. apply JsonRead.decode_object_iff in H5.
  assert (KA : known_alg alg = true).
  { unfold known_alg. destruct HG as [alg H B b msg sg HH _|alg n msg sg HI _|alg n msg sg HI _ _].
    - destruct HH; reflexivity.
    - apply in_existsb in HI. change (rsa_alg alg = true) in HI. rewrite HI. rewrite !orb_true_r. reflexivity.
    - apply in_existsb in HI. change (curve_alg alg = true) in HI. rewrite HI. rewrite !orb_true_r. reflexivity. }
  assert (HP : go_parse raw = PToken (JToken (to_jmap hl) (to_jmap cl))).
  { unfold go_parse. rewrite HS, H1, H4. cbn [as_jmap]. rewrite H2, H5. cbn [as_jmap].
    change (rev (map (fun p0 => (fst p0, as_jval (snd p0))) hl)) with (to_jmap hl). change (rev (map (fun p0 => (fst p0, as_jval (snd p0))) cl)) with (to_jmap cl).
    rewrite HA, KA. reflexivity. }
  split; [exact HP|]. unfold go_verify. rewrite HP, HS. cbn [jt_header]. rewrite HA. apply verify_genuine. exists sig. auto.
Qed.
Lemma known_alg_iff alg : known_alg alg = true <-> In alg algorithms.
Proof.
  unfold known_alg, rsa_alg, curve_alg, hs_method. split.
  - intros H. destruct (alg =s? "HS256") eqn:E1; sdestruct; [subst; cbn; tauto|].
    destruct (alg =s? "HS384") eqn:E2; sdestruct; [subst; cbn; tauto|]. destruct (alg =s? "HS512") eqn:E3; sdestruct; [subst; cbn; tauto|].
    cbn [orb] in H. rewrite !orb_true_iff, !in_existsb in H. destruct H as [[H|H]|H]; [cbn in *; tauto|cbn in *; tauto|].
    apply seqb_eq in H. subst. cbn. tauto.
  - intros H. unfold algorithms in H. cbn [In] in H. repeat (destruct H as [<-|H]; [reflexivity|]). contradiction.
Qed.
Lemma jws_parsed raw hl cl signed sig : jws raw hl cl signed sig ->
  (forall alg, member hl "alg" (FStr alg) -> In alg algorithms -> go_parse raw = PToken (JToken (to_jmap hl) (to_jmap cl))) /\
  ((forall alg, member hl "alg" (FStr alg) -> ~ In alg algorithms) -> go_parse raw = PNoAlg).
Proof.
  intros (h & p & s & hd & pd & HF & -> & HR & H1 & H2 & _ & H4 & H5).
  assert (HS : split_on "." raw = [h; p; s]) by (apply split_three; auto). rewrite <- raw_decode_iff in H1, H2.
  apply JsonRead.unmarshal_iff in H4. apply JsonRead.decode_object_iff in H5.
  unfold go_parse. rewrite HS, H1, H4. cbn [as_jmap]. rewrite H2, H5. cbn [as_jmap].
  change (rev (map (fun p0 => (fst p0, as_jval (snd p0))) hl)) with (to_jmap hl). change (rev (map (fun p0 => (fst p0, as_jval (snd p0))) cl)) with (to_jmap cl).
  split.
  - intros alg HA HI. apply jstr_member in HA. rewrite HA. apply known_alg_iff in HI. rewrite HI. reflexivity.
  - intros HN. destruct (jstr "alg" (to_jmap hl)) as [alg|] eqn:E; [|reflexivity]. apply jstr_member in E.
    destruct (known_alg alg) eqn:EK; [|reflexivity]. apply known_alg_iff in EK. contradiction (HN _ E EK).
Qed.
Lemma not_three_malformed raw :
  (forall h p s, Forall (fun x => ~ In "."%char (list_ascii_of_string x)) [h; p; s] -> raw <> ((h ++ "." ++ p) ++ "." ++ s)%string) ->
  go_parse raw = PMalformed.
Proof.
  intros H. unfold go_parse. destruct (split_on "." raw) as [|h [|p [|s [|]]]] eqn:E; try reflexivity.
  apply split_three in E. destruct E as [HF HR]. contradiction (H h p s HF HR).
Qed.

(** ** Accepted assertions *)
Lemma claim_member l k z : claim_int (JToken [] (to_jmap l)) k = Some z <-> member l k (FNum z).
Proof.
  unfold claim_int, to_jmap. cbn [jt_claims]. destruct (jget k _) as [x|] eqn:E.
  - apply member_jget in E. destruct E as (v & HM & ->). split.
    + destruct v; cbn; try discriminate. intros H. injection H as <-. exact HM.
    + intros HM'. rewrite (member_unique _ _ _ _ HM HM'). reflexivity.
  - pose proof (proj1 (member_none l k) E) as HN. split; [discriminate|]. intros H. contradiction (HN _ H).
Qed.
Lemma claim_int_map h m k : claim_int (JToken h m) k = claim_int (JToken [] m) k.
Proof. reflexivity. Qed.
Lemma accepted_good A raw c evs :
  (forall t, accepted (gojwt A) raw c t evs -> exists cl, good_assertion A raw c cl evs /\ jt_claims t = to_jmap cl) /\
  (forall cl, good_assertion A raw c cl evs -> exists t, accepted (gojwt A) raw c t evs /\ jt_claims t = to_jmap cl).
Proof.
  split.
  - intros t (now & exp & iss & (HP & k & HK & HV) & HC & HE & HA & HI & ->). cbn [jl_parse jl_verify gojwt] in HP, HV.
    assert (HN : jt_claims t <> []) by (intros X; rewrite X in HA; discriminate HA).
    destruct (verified_jws _ _ _ _ HP HV HN) as (hl & cl & signed & sig & alg & HJ & E1 & E2 & HM & HG).
    exists cl. split; [|exact E2]. unfold current in HC. cbn [jl_claims gojwt] in HC. destruct t as [th tc]. cbn [jt_header jt_claims] in *. subst th tc.
    exists hl, signed, sig, alg, (hdr (JToken (to_jmap hl) (to_jmap cl)) "kid"), k, now, exp, (claim_iat (JToken (to_jmap hl) (to_jmap cl))), (claim_jti (JToken (to_jmap hl) (to_jmap cl))), iss.
    split; [exact HJ|]. split; [exact HM|]. split; [apply text_jstr|]. apply jstr_member in HM.
    split; [revert HK; unfold hdr at 1; cbn [jt_header]; rewrite HM; auto|]. split; [exact HG|]. split; [apply current_in_time; exact HC|].
    rewrite claim_int_map in HE. apply claim_member in HE. split; [exact HE|]. split; [apply text_jstr|]. split.
    { unfold claim_iat. rewrite claim_int_map. destruct (claim_int _ "iat") as [z|] eqn:EI; [left; apply claim_member; exact EI|]. right. split; [reflexivity|].
      intros z Hz. apply claim_member in Hz. congruence. }
    split; [apply jstr_member; exact HA|]. auto.
  - intros cl (hl & signed & sig & alg & kid & k & now & exp & iat & jti & iss & HJ & HM & HKI & HK & HG & HT & HE & HJT & HIA & HA & HI & ->).
    exists (JToken (to_jmap hl) (to_jmap cl)). split; [|reflexivity]. destruct (jws_verified _ _ _ _ _ _ _ _ HJ HM HG) as [HP HV].
    exists now, exp, iss. split; [split; [exact HP|]|].
    { exists k. split; [|exact HV]. rewrite <- HK. f_equal; unfold hdr; cbn [jt_header].
      - apply jstr_member in HM. rewrite HM. reflexivity.
      - eapply text_fun; [apply text_jstr|exact HKI]. }
    split; [apply current_in_time; exact HT|]. rewrite claim_int_map. split; [apply claim_member; exact HE|].
    split; [apply jstr_member; exact HA|]. split; [exact HI|].
    assert (X : claim_jti (JToken (to_jmap hl) (to_jmap cl)) = jti) by (eapply text_fun; [apply text_jstr|exact HJT]).
    assert (Y : claim_iat (JToken (to_jmap hl) (to_jmap cl)) = iat).
    { unfold claim_iat. rewrite claim_int_map. destruct HIA as [HIA|(-> & HIA)]; [apply claim_member in HIA; rewrite HIA; reflexivity|].
      destruct (claim_int _ "iat") as [z|] eqn:EI; [|reflexivity]. apply claim_member in EI. contradiction (HIA z EI). }
    rewrite X, Y. reflexivity.
Qed.
