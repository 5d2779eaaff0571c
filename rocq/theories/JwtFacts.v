(** * Facts about the JWT library of Jwt.v. *)
From Coq Require Import Lia Permutation.
From Verif Require Import GoStr Codec StrFacts Json JsonParse JsonFacts JsonFull Core Sha Utils UtilsFacts ShaFacts Spec CodecSpec Jwt JwtSpec.
From Verif Require JsonSpec JsonRead.

(** ** base64 *)
Lemma sx_char_url_safe s : let c := sx_char B64Url s in
  Ascii.eqb c "." = false /\ (N.eqb (N_of_ascii c) 10 || N.eqb (N_of_ascii c) 13)%bool = false.
Proof. destruct s as [[] [] [] [] [] []]; split; reflexivity. Qed.
Lemma char_code s : char_sx B64Url (sx_char B64Url s) = Some s.
Proof. apply char_sx_char. Qed.

Lemma nopad_clean s : has_byte "." (b64url_nopad s) = false /\ strip_nl (b64url_nopad s) = b64url_nopad s.
Proof.
  induction s as [|a|a b|a b c s [IH1 IH2]] using string_ind3.
  - split; reflexivity.
  - rewrite b64url_nopad_1. simpl nopad3. simpl has_byte. cbn [strip_nl].
    rewrite !(proj1 (sx_char_url_safe _)), !(proj2 (sx_char_url_safe _)). split; reflexivity.
  - rewrite b64url_nopad_2. simpl nopad3. simpl has_byte. cbn [strip_nl].
    rewrite !(proj1 (sx_char_url_safe _)), !(proj2 (sx_char_url_safe _)). split; reflexivity.
  - rewrite b64url_nopad_3. cbn [has_byte strip_nl].
    rewrite !(proj1 (sx_char_url_safe _)), !(proj2 (sx_char_url_safe _)), IH1, IH2. split; reflexivity.
Qed.
Lemma raw_round s : raw_decode (b64url_nopad s) = Some s.
Proof.
  unfold raw_decode. rewrite (proj2 (nopad_clean s)).
  induction s as [|a|a b|a b c s IH] using string_ind3.
  - reflexivity.
  - rewrite b64url_nopad_1. simpl nopad3. cbn [raw_quanta]. rewrite !char_code. destruct a. reflexivity.
  - rewrite b64url_nopad_2. simpl nopad3. cbn [raw_quanta]. rewrite !char_code. destruct a, b. reflexivity.
  - rewrite b64url_nopad_3. cbn [raw_quanta]. rewrite !char_code, IH.
    destruct (b64url_nopad s) as [|x [|y [|z r]]]; destruct a, b, c; reflexivity.
Qed.

(** ** Numbers *)
Lemma round_exact a b : (0 < b)%Z -> (a mod b = 0)%Z -> round_div a b = (a / b)%Z.
Proof. intros H E. unfold round_div. rewrite E. replace (2 * 0 <? b)%Z with true; [reflexivity|]. symmetry. apply Z.ltb_lt. lia. Qed.

Lemma float_small z : (0 <= z <= 2 ^ 53)%Z -> float_trunc z 1 = Some z.
Proof.
  intros H. unfold float_trunc. rewrite Z.div_1_r. destruct (z <? 1)%Z eqn:E1.
  { apply Z.ltb_lt in E1. assert (z = 0%Z) as -> by lia. reflexivity. }
  apply Z.ltb_ge in E1. destruct (Z.eq_dec z (2 ^ 53)) as [->|HD]; [vm_compute; reflexivity|].
  assert (HL : (Z.log2 z <= 52)%Z).
  { destruct (Z.le_gt_cases (Z.log2 z) 52) as [X|X]; [exact X|]. exfalso.
    assert (Y : (2 ^ 53 <= 2 ^ Z.log2 z)%Z) by (apply Z.pow_le_mono_r; lia).
    pose proof (Z.log2_spec z ltac:(lia)). lia. }
  destruct (Z.leb_spec 0 (Z.log2 z - 52)) as [X|X].
  - assert (Z.log2 z - 52 = 0)%Z as -> by lia. change (1 * 2 ^ 0)%Z with 1%Z. change (2 ^ 0)%Z with 1%Z.
    rewrite round_exact by (rewrite ?Z.mod_1_r; lia). rewrite Z.div_1_r, Z.mul_1_r.
    replace (z <? 2 ^ 1024)%Z with true; [reflexivity|]. symmetry. apply Z.ltb_lt.
    assert (2 ^ 53 < 2 ^ 1024)%Z by (apply Z.pow_lt_mono_r; lia). lia.
  - rewrite round_exact by (rewrite ?Z.mod_1_r; lia). rewrite Z.div_1_r.
    rewrite Z.div_mul; [reflexivity|]. apply Z.pow_nonzero; lia.
Qed.

(** ** The full reader reads what the smaller one reads. *)
Inductive small : json -> Prop :=
| sm_null : small JSNull
| sm_bool b : small (JSBool b)
| sm_int z : (- 2 ^ 53 <= z <= 2 ^ 53)%Z -> small (JSInt z)
| sm_str s : small (JSString s)
| sm_obj l : Forall (fun p => small (snd p)) l -> small (JSObj l).
Fixpoint emb (v : json) : fval :=
  match v with
  | JSNull => FNull
  | JSBool b => FBool b
  | JSInt z => FNum z
  | JSString s => FStr s
  | JSObj l => FObj (map (fun p => (fst p, emb (snd p))) l)
  end.
Definition emb_m (p : string * json) : string * fval := (fst p, emb (snd p)).

Lemma small_int64 z : (- 2 ^ 53 <= z <= 2 ^ 53)%Z -> to_int64 z = z.
Proof.
  intros H. unfold to_int64. replace (is_int64 z) with true; [reflexivity|]. symmetry. unfold is_int64.
  change (2 ^ 53)%Z with 9007199254740992%Z in H.
  apply andb_true_iff. split; [apply Z.leb_le|apply Z.ltb_lt]; unfold two63; lia.
Qed.

Lemma digits_app d : forall acc f, digits_val acc (d ++ f) = match digits_val acc d with Some x => digits_val x f | None => None end.
Proof. induction d as [|a d IH]; intros acc f; [reflexivity|]. cbn [append digits_val]. destruct (is_digit a); [apply IH|reflexivity]. Qed.
Lemma app_nil_r2 s : (s ++ "")%string = s.
Proof. induction s as [|a s IH]; simpl; congruence. Qed.

Lemma digits_sign d : int_part d = true -> Forall (fun a => is_digit a = true) (list_ascii_of_string d) ->
  exists a t, d = String a t /\ is_digit a = true.
Proof. destruct d as [|a t]; [discriminate|]. intros _ H. inversion H; subst. eauto. Qed.
Lemma span_all s : forall d r, span_digits s = (d, r) -> Forall (fun a => is_digit a = true) (list_ascii_of_string d).
Proof.
  induction s as [|a s IH]; intros d r H; cbn [span_digits] in H; [injection H as <- <-; constructor|].
  destruct (is_digit a) eqn:E; [|injection H as <- <-; constructor].
  destruct (span_digits s) as [d' t']. injection H as <- <-. constructor; [exact E|]. eapply IH. reflexivity.
Qed.
Lemma digits_nonneg d : forall acc x, (0 <= acc)%Z -> digits_val acc d = Some x -> (0 <= x)%Z.
Proof.
  induction d as [|a d IH]; intros acc x HA H; cbn [digits_val] in H; [injection H as <-; exact HA|].
  destruct (is_digit a) eqn:E; [|discriminate]. eapply IH; [|exact H].
  assert (48 <= Z.of_N (N_of_ascii a))%Z; [|lia]. revert E. bytes a; vm_compute; intros E; congruence.
Qed.

Lemma number_int s z r : jint s = Some (z, r) -> (- 2 ^ 53 <= z <= 2 ^ 53)%Z -> fnumber s = Some (z, r).
Proof.
  intros H HZ. unfold jint in H. unfold fnumber.
  set (sb := match s with String "-" r0 => ("-", r0) | _ => ("", s) end) in H.
  assert (ES : exists neg body, (match s with String "-" r0 => (true, r0) | _ => (false, s) end) = (neg, body) /\
                 sb = ((if neg : bool then "-" else ""), body)).
  { unfold sb. destruct s as [|a s']; [eauto|]. bytes a; eauto. }
  destruct ES as (neg & body & -> & ->).
  destruct (span_digits body) as [d r1] eqn:ED.
  fold (int_part d) in H. destruct (int_part d) eqn:EI; [|discriminate H]. cbn [andb] in H.
  destruct (match r1 with String a _ => negb (Ascii.eqb a "." || Ascii.eqb a "e" || Ascii.eqb a "E") | EmptyString => true end) eqn:EST; [|discriminate H].
  destruct (atoi ((if neg then "-" else "") ++ d)) as [z'|] eqn:EA; [|discriminate H]. injection H as <- <-.
  assert (EF : frac_part r1 = Some ("", r1)).
  { destruct r1 as [|a t]; [reflexivity|]. cbn [frac_part]. apply negb_true_iff in EST. destruct (Ascii.eqb a "."); [discriminate EST|reflexivity]. }
  assert (EX : exp_part r1 = Some (0%Z, r1)).
  { destruct r1 as [|a t]; [reflexivity|]. cbn [exp_part]. apply negb_true_iff in EST.
    destruct (Ascii.eqb a "."); [discriminate EST|]. destruct (Ascii.eqb a "e"), (Ascii.eqb a "E"); try discriminate EST. reflexivity. }
  rewrite EF, EX, app_nil_r2.
  destruct (digits_sign d EI (span_all _ _ _ ED)) as (a & t & -> & HD).
  assert (EV : exists v, digits_val 0 (String a t) = Some v /\ z' = (if neg then (- v)%Z else v)).
  { unfold atoi in EA. destruct neg.
    - cbn [append] in EA. cbn [seqb] in EA. change (seqb (String a t) "") with false in EA. cbv iota in EA.
      destruct (digits_val 0 (String a t)) as [v|] eqn:X; [|discriminate EA]. exists v. split; [reflexivity|].
      destruct (is_int64 (- v)); [congruence|discriminate EA].
    - cbn [append] in EA.
      assert (Y : (match String a t with String "-" r0 => (true, r0) | String "+" r0 => (false, r0) | _ => (false, String a t) end) = (false, String a t)).
      { clear - HD. bytes a; (reflexivity || discriminate HD). }
      rewrite Y in EA. change (seqb (String a t) "") with false in EA. cbv iota in EA.
      destruct (digits_val 0 (String a t)) as [v|] eqn:X; [|discriminate EA]. exists v. split; [reflexivity|].
      destruct (is_int64 v); [congruence|discriminate EA]. }
  destruct EV as (v & EV & ->). rewrite EV. change (slen "") with 0%Z. cbn [Z.sub Z.opp Z.max]. change (10 ^ 0)%Z with 1%Z. rewrite Z.mul_1_r.
  assert (HV : (0 <= v)%Z) by (eapply digits_nonneg; [|exact EV]; lia).
  rewrite float_small by (destruct neg; lia). rewrite small_int64; [reflexivity|exact HZ].
Qed.

Lemma word_emb w v s v' r : jword w v s = Some (v', r) -> fword w (emb v) s = Some (emb v', r).
Proof. unfold jword, fword. destruct (String.prefix w s); [|discriminate]. intros H. injection H as <- <-. reflexivity. Qed.

Lemma value_emb n :
  (forall s v r, jvalue n s = Some (v, r) -> small v -> fvalue n s = Some (emb v, r)) /\
  (forall s l r, jmembers n s = Some (l, r) -> Forall (fun p => small (snd p)) l -> fmembers n s = Some (map emb_m l, r)).
Proof.
  induction n as [|n [IH1 IH2]]; [split; discriminate|]. split.
  - intros s v r H HS. cbn [jvalue] in H. cbn [fvalue]. destruct (jskip s) as [|a t]; [discriminate H|].
    destruct (Ascii.eqb a dquote).
    { destruct (jliteral t) as [[x r']|]; [|discriminate H]. injection H as <- <-. reflexivity. }
    destruct (Ascii.eqb a "{") eqn:EB.
    { destruct (jskip t) as [|b t']; [discriminate H|]. destruct (Ascii.eqb b "}"); [injection H as <- <-; reflexivity|].
      destruct (jmembers n (String b t')) as [[l r2]|] eqn:EM; [|discriminate H]. injection H as <- <-.
      inversion HS; subst. rewrite (IH2 _ _ _ EM) by assumption. reflexivity. }
    destruct (Ascii.eqb a "[") eqn:EA.
    { exfalso. apply Ascii.eqb_eq in EA. subst a. cbn in H. discriminate H. }
    destruct (Ascii.eqb a "n"); [exact (word_emb _ JSNull _ _ _ H)|]. destruct (Ascii.eqb a "t"); [exact (word_emb _ (JSBool true) _ _ _ H)|].
    destruct (Ascii.eqb a "f"); [exact (word_emb _ (JSBool false) _ _ _ H)|].
    destruct (jint (String a t)) as [[z r']|] eqn:EJ; [|discriminate H]. injection H as <- <-. inversion HS; subst.
    rewrite (number_int _ _ _ EJ) by assumption. reflexivity.
  - intros s l r H HS. cbn [jmembers] in H. cbn [fmembers]. destruct (jskip s) as [|q t]; [discriminate H|].
    destruct (Ascii.eqb q dquote); [|discriminate H]. destruct (jliteral t) as [[k r1]|]; [|discriminate H].
    destruct (jskip r1) as [|c r2]; [discriminate H|]. destruct (Ascii.eqb c ":"); [|discriminate H].
    destruct (jvalue n r2) as [[v r3]|] eqn:EV; [|discriminate H]. destruct (jskip r3) as [|e r4] eqn:EK; [discriminate H|].
    destruct (Ascii.eqb e "}") eqn:EE.
    { injection H as <- <-. inversion HS; subst. rewrite (IH1 _ _ _ EV) by assumption. rewrite EK, EE. reflexivity. }
    destruct (Ascii.eqb e ",") eqn:EC; [|discriminate H]. destruct (jmembers n r4) as [[l' r5]|] eqn:EM; [|discriminate H].
    injection H as <- <-. inversion HS; subst. rewrite (IH1 _ _ _ EV) by assumption. rewrite EK, EE, EC.
    rewrite (IH2 _ _ _ EM) by assumption. reflexivity.
Qed.

Lemma parse_unmarshal s v : jparse s = Some v -> small v -> (depth (emb v) <= 1)%N -> unmarshal s = Some (emb v) /\ decode_one s = Some (emb v).
Proof.
  unfold jparse, unmarshal, decode_one. intros H HS HD. assert (HL : (depth (emb v) <=? max_nesting)%N = true) by (apply N.leb_le; change max_nesting with 10000%N; lia). destruct (jvalue (S (String.length s)) s) as [[x r]|] eqn:E; [|discriminate].
  destruct (seqb (jskip r) "") eqn:ES; [|discriminate]. injection H as <-.
  rewrite (proj1 (value_emb _) _ _ _ E HS), ES, HL. split; reflexivity.
Qed.

(** ** Sorting members. *)
Lemma insert_perm x l : Permutation (insert_member x l) (x :: l).
Proof.
  induction l as [|y l IH]; [reflexivity|]. cbn [insert_member]. destruct (sle (fst x) (fst y)); [reflexivity|].
  rewrite IH. apply perm_swap.
Qed.
Lemma sort_perm l : Permutation (sort_members l) l.
Proof. induction l as [|x l IH]; [reflexivity|]. cbn [sort_members]. rewrite insert_perm, IH. reflexivity. Qed.

(** ** HMAC *)
Lemma zeros_all n : Forall (fun a => a = "000"%char) (list_ascii_of_string (zeros n)) /\ String.length (zeros n) = n.
Proof. induction n as [|n [IH1 IH2]]; simpl; split; auto. Qed.
Lemma map_bytes_xored n s : map_bytes (xor_byte n) s = xored n s.
Proof. induction s as [|a s IH]; [reflexivity|]. cbn [map_bytes]. rewrite IH. reflexivity. Qed.
Lemma zeros_unique s : Forall (fun a => a = "000"%char) (list_ascii_of_string s) -> s = zeros (String.length s).
Proof. induction s as [|a s IH]; intros H; [reflexivity|]. inversion H; subst. simpl. rewrite <- IH by assumption. reflexivity. Qed.
Lemma hmac_rfc H block k msg out : (forall s, String.length (H s) <= block)%nat ->
  (hmac H block k msg = out <-> rfc2104 H block k msg out).
Proof.
  intros HL. unfold hmac, block_key. rewrite !map_bytes_xored.
  set (k' := if Nat.ltb block (String.length k) then H k else k).
  assert (HK : (String.length k <= block)%nat /\ k' = k \/ (block < String.length k)%nat /\ k' = H k).
  { subst k'. destruct (Nat.ltb_spec block (String.length k)); [right|left]; split; auto. }
  assert (HB : (String.length k' <= block)%nat) by (destruct HK as [[X ->]|[_ ->]]; auto).
  split.
  - intros <-. exists k', (zeros (block - String.length k')). split; [exact HK|]. split; [apply zeros_all|]. split; [|reflexivity].
    rewrite length_app, (proj2 (zeros_all _)). lia.
  - intros (k2 & zs & H2 & HZ & HE & ->).
    assert (k2 = k') as -> by (destruct HK as [[X ->]|[X ->]], H2 as [[Y ->]|[Y ->]]; auto; lia).
    rewrite length_app in HE. rewrite (zeros_unique zs HZ).
    replace (block - String.length k')%nat with (String.length zs) by lia. reflexivity.
Qed.
Lemma hs_method_spec alg mac : hs_method alg = Some mac <-> exists H B, hs_alg alg H B /\ mac = hmac H B.
Proof.
  unfold hs_method. split.
  - destruct (seqb alg "HS256") eqn:E1; [apply seqb_eq in E1; subst; intros X; injection X as <-; exists sha256, 64%nat; split; [constructor|reflexivity]|].
    destruct (seqb alg "HS384") eqn:E2; [apply seqb_eq in E2; subst; intros X; injection X as <-; exists sha384, 128%nat; split; [constructor|reflexivity]|].
    destruct (seqb alg "HS512") eqn:E3; [apply seqb_eq in E3; subst; intros X; injection X as <-; exists sha512, 128%nat; split; [constructor|reflexivity]|].
    discriminate.
  - intros (H & B & HA & ->). destruct HA; reflexivity.
Qed.
Lemma hs_length alg H B : hs_alg alg H B -> forall s, (String.length (H s) <= B)%nat.
Proof. destruct 1; intros s; rewrite ?sha256_length, ?sha384_length, ?sha512_length; lia. Qed.
Lemma hs_fun alg H1 B1 H2 B2 : hs_alg alg H1 B1 -> hs_alg alg H2 B2 -> H1 = H2 /\ B1 = B2.
Proof. destruct 1; intros X; inversion X; auto. Qed.
Lemma in_existsb alg l : existsb (seqb alg) l = true <-> In alg l.
Proof.
  rewrite existsb_exists. split; [intros (x & HI & E); apply seqb_eq in E; subst; exact HI|].
  intros H. exists alg. split; [exact H|]. apply seqb_eq. reflexivity.
Qed.

(** ** What the signature check accepts *)
Lemma verify_genuine A alg k input sig : method_verify A alg k input sig = true <->
  exists x, raw_decode sig = Some x /\ genuine A alg k input x.
Proof.
  unfold method_verify. destruct (raw_decode sig) as [x|]; [|split; [discriminate|intros (x & X & _); discriminate X]].
  destruct (hs_method alg) as [mac|] eqn:EH.
  - apply hs_method_spec in EH. destruct EH as (H & B & HA & ->). split.
    + destruct k as [b|n|n|n]; try discriminate. intros E. apply seqb_eq in E. exists x. split; [reflexivity|].
      eapply gn_secret; [exact HA|]. apply hmac_rfc; [eapply hs_length; exact HA|exact E].
    + intros (y & E & HG). injection E as <-. destruct HG as [alg H2 B2 b msg sg HB HR|alg n msg sg HI _|alg n msg sg HI _ _].
      * destruct (hs_fun _ _ _ _ _ HA HB) as [<- <-]. apply seqb_eq. apply hmac_rfc; [eapply hs_length; exact HA|exact HR].
      * exfalso. destruct HA; simpl in HI; intuition discriminate.
      * exfalso. destruct HA; simpl in HI; intuition discriminate.
  - rewrite andb_true_iff. unfold verifies_with, rsa_alg, curve_alg. rewrite orb_true_iff, !andb_true_iff, !in_existsb. split.
    + intros [[[HI HK]|[HI HK]] HV]; exists x; (split; [reflexivity|]); destruct k as [b|n|n|n]; try discriminate HK.
      * apply gn_rsa; assumption.
      * apply gn_curve; [assumption| |assumption]. intros ->. discriminate HK.
    + intros (y & E & HG). injection E as <-. destruct HG as [alg H2 B2 b msg sg HB HR|alg n msg sg HI HV|alg n msg sg HI HN HV].
      * exfalso. assert (hs_method alg = Some (hmac H2 B2)) by (apply hs_method_spec; eauto). congruence.
      * split; [left; auto|exact HV].
      * split; [right; split; [exact HI|]|exact HV]. simpl. apply negb_true_iff, N.eqb_neq. exact HN.
Qed.

(** ** Signed tokens *)
Lemma compact_split tok h p s : compact tok h p s -> split_on "." tok = [rfc4648_url h; rfc4648_url p; rfc4648_url s].
Proof.
  intros ->. unfold to_sign. rewrite <- !b64url_nopad_rfc.
  replace ((b64url_nopad h ++ "." ++ b64url_nopad p) ++ "." ++ b64url_nopad s)%string
    with (b64url_nopad h ++ String "." (b64url_nopad p ++ String "." (b64url_nopad s)))%string by (rewrite !app_assoc_s; reflexivity).
  rewrite split_on_app by apply nopad_clean. rewrite split_on_app by apply nopad_clean. rewrite split_on_atom by apply nopad_clean. reflexivity.
Qed.
Lemma compact_unique tok h p s h' p' s' : compact tok h p s -> compact tok h' p' s' -> h = h' /\ p = p' /\ s = s'.
Proof.
  intros H1 H2. apply compact_split in H1, H2. rewrite H1 in H2. injection H2 as E1 E2 E3.
  rewrite <- !b64url_nopad_rfc in *. apply b64url_nopad_inj in E1, E2, E3. auto.
Qed.

Lemma sign_compact A alg kid cs k tok : go_sign A alg kid cs k = Some tok ->
  exists k0 sig, k = Some k0 /\ method_sign A alg k (to_sign (jprint (JSObj (sort_members (header_members alg kid)))) (jprint (JSObj (sort_members (map claim_json cs))))) = Some sig /\
    compact tok (jprint (JSObj (sort_members (header_members alg kid)))) (jprint (JSObj (sort_members (map claim_json cs)))) sig.
Proof.
  unfold go_sign. intros H.
  assert (EI : signing_input alg kid cs = to_sign (jprint (JSObj (sort_members (header_members alg kid)))) (jprint (JSObj (sort_members (map claim_json cs))))).
  { unfold signing_input, to_sign, segment. rewrite !b64url_nopad_rfc. reflexivity. }
  rewrite EI in H. destruct (method_sign A alg k _) as [sig|] eqn:ES; [|discriminate H]. injection H as <-.
  destruct k as [k0|]; [|discriminate ES]. exists k0, sig. split; [reflexivity|]. split; [reflexivity|]. unfold compact. rewrite b64url_nopad_rfc. reflexivity.
Qed.

(* what is printed is read *)
Lemma object_print l : Forall (fun p => writable (snd p)) l -> NoDup (map fst l) -> (forall k, In k (map fst l) -> utf8 k) ->
  exists l', object (jprint (JSObj (sort_members l))) l' /\ forall k v, In (k, v) l' <-> exists v0, In (k, v0) l /\ v = repair v0.
Proof.
  intros HW HN HU. exists (map repair_m (sort_members l)).
  assert (HP := sort_perm l).
  assert (EK : map fst (map repair_m (sort_members l)) = map fst (sort_members l)).
  { rewrite map_map. apply map_ext_in. intros [k v] HI. cbn. apply to_valid_fixed. apply HU. apply in_map_iff. exists (k, v). split; [reflexivity|].
    eapply Permutation_in; [exact HP|exact HI]. }
  split; [split|].
  - apply JsonRead.jparse_iff. rewrite jparse_print; [reflexivity|]. constructor. apply Forall_forall. intros p Hp. rewrite Forall_forall in HW. apply HW.
    eapply Permutation_in; [exact HP|exact Hp].
  - rewrite EK. eapply Permutation_NoDup; [apply Permutation_map; apply Permutation_sym; exact HP|exact HN].
  - intros k v. rewrite in_map_iff. split.
    + intros ([k0 v0] & E & HI). unfold repair_m in E. cbn in E. injection E as E1 E2.
      assert (HI2 : In (k0, v0) l) by (eapply Permutation_in; [exact HP|exact HI]).
      assert (to_valid k0 = k0) as X. { apply to_valid_fixed, HU, in_map_iff. exists (k0, v0). auto. }
      exists v0. split; [congruence|auto].
    + intros (v0 & HI & ->). exists (k, v0). split.
      * unfold repair_m. cbn. f_equal. apply to_valid_fixed, HU, in_map_iff. exists (k, v0). auto.
      * eapply Permutation_in; [apply Permutation_sym; exact HP|exact HI].
Qed.

Lemma written_repair x v : written x v <-> v = repair (snd (claim_json ("", x))).
Proof.
  destruct x as [s|z]; cbn; split.
  - intros H. inversion H; subst. f_equal. apply repaired_unique. assumption.
  - intros ->. constructor. apply to_valid_repaired.
  - intros H. inversion H; subst. reflexivity.
  - intros ->. constructor.
Qed.
Lemma claim_names cs : map fst (map claim_json cs) = map fst cs.
Proof. rewrite map_map. apply map_ext. intros [k v]. reflexivity. Qed.
Lemma claims_print cs : writable_claims cs ->
  exists l', object (jprint (JSObj (sort_members (map claim_json cs)))) l' /\
    forall k v, In (k, v) l' <-> exists x, In (k, x) cs /\ written x v.
Proof.
  intros (HN & HU & HZ).
  destruct (object_print (map claim_json cs)) as (l' & HO & HI).
  - apply Forall_forall. intros p Hp. apply in_map_iff in Hp. destruct Hp as ([k x] & <- & Hp). cbn. destruct x as [s|z]; constructor. eapply HZ. exact Hp.
  - rewrite claim_names. exact HN.
  - rewrite claim_names. exact HU.
  - exists l'. split; [exact HO|]. intros k v. rewrite HI. split.
    + intros (v0 & H & ->). apply in_map_iff in H. destruct H as ([k0 x] & E & H). unfold claim_json in E. cbn in E. injection E as <- <-.
      exists x. split; [exact H|]. apply written_repair. reflexivity.
    + intros (x & H & HW). apply written_repair in HW. exists (snd (claim_json ("", x))). split; [|exact HW].
      apply in_map_iff. exists (k, x). split; [reflexivity|exact H].
Qed.

(* the algorithm of a signed token *)
Lemma alg_known A alg k input sig : method_sign A alg k input = Some sig -> known_alg alg = true /\ utf8 alg /\ alg <> "none".
Proof.
  intros H. assert (X : In alg ["HS256"; "HS384"; "HS512"; "RS256"; "RS384"; "RS512"; "PS256"; "PS384"; "PS512"; "ES256"; "ES384"; "ES512"; "EdDSA"]).
  { unfold method_sign in H. destruct k as [k|]; [|discriminate H]. destruct (hs_method alg) as [mac|] eqn:E.
    - apply hs_method_spec in E. destruct E as (Hh & B & HA & _). destruct HA; simpl; auto.
    - destruct (signs_with alg k) eqn:ES; [|discriminate H]. unfold signs_with, rsa_alg, curve_alg in ES.
      rewrite orb_true_iff, !andb_true_iff, !in_existsb in ES. simpl in *. tauto. }
  assert (U : forall s, Forall (fun a => (N_of_ascii a <= 127)%N) (list_ascii_of_string s) -> utf8 s).
  { induction s as [|a s IH]; intros HF; [constructor|]. inversion HF; subst. apply u8_1; [split; [lia|assumption]|auto]. }
  simpl in X.
  repeat (destruct X as [<-|X]; [split; [reflexivity|]; split; [apply U; repeat constructor; vm_compute; discriminate|discriminate]|]).
  destruct X.
Qed.
Lemma ascii_utf8 s : Forall (fun a => (N_of_ascii a <= 127)%N) (list_ascii_of_string s) -> utf8 s.
Proof. induction s as [|a s IH]; intros HF; [constructor|]. inversion HF; subst. apply u8_1; [split; [lia|assumption]|auto]. Qed.

Lemma header_print alg kid : utf8 alg ->
  exists l', object (jprint (JSObj (sort_members (header_members alg kid)))) l' /\
    forall k v, In (k, v) l' <-> k = "alg" /\ v = JSString alg \/ k = "typ" /\ v = JSString "JWT" \/
      k = "kid" /\ exists kd kd', kid = Some kd /\ repaired kd kd' /\ v = JSString kd'.
Proof.
  intros HU. destruct (object_print (header_members alg kid)) as (l' & HO & HI).
  - destruct kid; repeat constructor.
  - destruct kid; repeat constructor; simpl; intuition discriminate.
  - assert (U : forall s, In s ["typ"; "alg"; "kid"] -> utf8 s).
    { intros s Hs. simpl in Hs. repeat (destruct Hs as [<-|Hs]; [apply ascii_utf8; repeat constructor; vm_compute; discriminate|]). destruct Hs. }
    destruct kid; simpl; intros k Hk; apply U; simpl; tauto.
  - exists l'. split; [exact HO|]. intros k v. rewrite HI. split.
    + intros (v0 & H & ->). unfold header_members in H. apply in_app_iff in H. destruct H as [H|H].
      * destruct H as [H|[H|[]]]; injection H as <- <-; [right; left; split; reflexivity|left; split; [reflexivity|]]. cbn. f_equal. apply to_valid_fixed. exact HU.
      * destruct kid as [kd|]; [|destruct H]. destruct H as [H|[]]. injection H as <- <-. right; right. split; [reflexivity|].
        exists kd, (to_valid kd). split; [reflexivity|]. split; [apply to_valid_repaired|reflexivity].
    + intros [(-> & ->)|[(-> & ->)|(-> & kd & kd' & -> & HR & ->)]].
      * exists (JSString alg). split; [destruct kid; simpl; auto|]. cbn. f_equal. symmetry. apply to_valid_fixed. exact HU.
      * exists (JSString "JWT"). split; [destruct kid; simpl; auto|]. reflexivity.
      * exists (JSString kd). split; [simpl; auto|]. cbn. f_equal. apply repaired_unique. exact HR.
Qed.

(** ** The library reads what it signs *)
Lemma jget_in (m : jmap) k v : NoDup (map fst m) -> (jget k m = Some v <-> In (k, v) m).
Proof.
  induction m as [|[k' v'] m IH]; intros HN; [split; [discriminate|intros []]|]. inversion HN as [|? ? HX HK]; subst.
  cbn [jget]. destruct (seqb k k') eqn:E.
  - apply seqb_eq in E. subst k'. split; [intros H; injection H as <-; left; reflexivity|].
    intros [H|H]; [congruence|]. exfalso. apply HX. apply (in_map fst) in H. exact H.
  - rewrite (IH HK). split; [intros H; right; exact H|]. intros [H|H]; [|exact H]. injection H as <- <-.
    exfalso. assert (seqb k' k' = true) by (apply seqb_eq; reflexivity). congruence.
Qed.
Lemma object_fun text l l' : object text l -> object text l' -> l = l'.
Proof. intros [H _] [H' _]. apply JsonRead.jparse_iff in H, H'. congruence. Qed.
Lemma flat_depth l : Forall (fun p => depth (emb (snd p)) = 0%N) l -> (depth (emb (JSObj l)) <= 1)%N.
Proof.
  intros H. cbn [emb depth]. enough (E : fold_right N.max 0%N (map (fun p : string * fval => depth (snd p)) (map (fun p => (fst p, emb (snd p))) l)) = 0%N) by (rewrite E; lia).
  induction H as [|[k v] l HV HF IH]; [reflexivity|]. cbn [map fold_right]. change (snd (fst (k, v), emb (snd (k, v)))) with (emb v). cbn [snd] in HV. rewrite HV, IH. reflexivity.
Qed.
Lemma object_map text l : object text l -> small (JSObj l) -> Forall (fun p => depth (emb (snd p)) = 0%N) l ->
  exists m, unmarshal text = Some (emb (JSObj l)) /\ decode_one text = Some (emb (JSObj l)) /\ as_jmap (emb (JSObj l)) = Some m /\
    forall k v, jget k m = Some v <-> exists x, In (k, x) l /\ v = as_jval (emb x).
Proof.
  intros [HP HN] HS HD. apply JsonRead.jparse_iff in HP. destruct (parse_unmarshal _ _ HP HS (flat_depth _ HD)) as [H1 H2].
  eexists. split; [exact H1|]. split; [exact H2|]. split; [reflexivity|]. intros k v.
  rewrite jget_in.
  - rewrite <- in_rev, in_map_iff. split.
    + intros ([k0 x0] & E & HI). apply in_map_iff in HI. destruct HI as ([k1 x1] & E1 & HI). cbn in E, E1. injection E as <- <-. injection E1 as <- <-.
      exists x1. auto.
    + intros (x & HI & ->). exists (k, emb x). split; [reflexivity|]. apply in_map_iff. exists (k, x). auto.
  - rewrite map_rev. apply NoDup_rev. rewrite !map_map. cbn. exact HN.
Qed.


Lemma sign_parse A alg kid cs k tok : go_sign A alg kid cs k = Some tok -> writable_claims cs -> small_claims cs ->
  exists t, go_parse tok = PToken t /\ jstr "alg" (jt_header t) = Some alg /\
    (forall kd, kid = Some kd -> utf8 kd -> jstr "kid" (jt_header t) = Some kd) /\
    (forall key s s', In (key, CStr s) cs -> repaired s s' -> jget key (jt_claims t) = Some (JStr s')) /\
    (forall key z, In (key, CInt z) cs -> jget key (jt_claims t) = Some (JFloat z)) /\
    (forall key, ~ In key (map fst cs) -> jget key (jt_claims t) = None).
Proof.
  intros H HC HS. destruct (sign_compact _ _ _ _ _ _ H) as (k0 & sig & -> & HM & HT). destruct (alg_known _ _ _ _ _ HM) as (HA & HU & HNone).
  destruct (header_print alg kid HU) as (hl & HO & HI). destruct (claims_print cs HC) as (cl & CO & CI).
  destruct (object_map _ _ HO) as (hm & HU1 & _ & HU3 & HU4).
  { constructor. apply Forall_forall. intros [x v] Hx. apply HI in Hx. destruct Hx as [(_ & E)|[(_ & E)|(_ & kd & kd' & _ & _ & E)]]; cbn in *; subst v; constructor. }
  { apply Forall_forall. intros [x v] Hx. apply HI in Hx. destruct Hx as [(_ & E)|[(_ & E)|(_ & kd & kd' & _ & _ & E)]]; cbn in *; subst v; reflexivity. }
  destruct (object_map _ _ CO) as (cm & _ & CU2 & CU3 & CU4).
  { constructor. apply Forall_forall. intros [x v] Hx. apply CI in Hx. destruct Hx as (y & Hy & HW). cbn. inversion HW; subst; constructor. eapply HS. exact Hy. }
  { apply Forall_forall. intros [x v] Hx. apply CI in Hx. destruct Hx as (y & Hy & HW). cbn. inversion HW; subst; reflexivity. }
  exists (JToken hm cm). unfold go_parse. rewrite (compact_split _ _ _ _ HT). rewrite <- !b64url_nopad_rfc, !raw_round, HU1, HU3, CU2, CU3.
  assert (EA : jstr "alg" hm = Some alg).
  { unfold jstr. replace (jget "alg" hm) with (Some (JStr alg)); [reflexivity|]. symmetry. apply HU4. exists (JSString alg). split; [apply HI; auto|reflexivity]. }
  rewrite EA, HA. split; [reflexivity|]. split; [exact EA|]. cbn [jt_header jt_claims]. split; [|split; [|split]].
  - intros kd -> Hkd. unfold jstr. replace (jget "kid" hm) with (Some (JStr kd)); [reflexivity|]. symmetry. apply HU4. exists (JSString kd).
    split; [|reflexivity]. apply HI. right; right. split; [reflexivity|]. exists kd, kd. split; [reflexivity|]. split; [|reflexivity].
    pose proof (to_valid_repaired kd) as X. rewrite (proj2 (to_valid_fixed kd) Hkd) in X. exact X.
  - intros key s s' Hin HR. apply CU4. exists (JSString s'). split; [|reflexivity]. apply CI. exists (CStr s). split; [exact Hin|constructor; exact HR].
  - intros key z Hin. apply CU4. exists (JSInt z). split; [|reflexivity]. apply CI. exists (CInt z). split; [exact Hin|constructor].
  - intros key Hno. destruct (jget key cm) as [v|] eqn:E; [|reflexivity]. exfalso. apply CU4 in E. destruct E as (x & Hx & _). apply CI in Hx.
    destruct Hx as (y & Hy & _). apply Hno. apply in_map_iff. exists (key, y). auto.
Qed.

Lemma sign_verify A alg kid cs k tok : go_sign A alg kid cs (Some k) = Some tok -> writable_claims cs -> small_claims cs ->
  (exists b, k = KBytes b) -> go_verify A tok k = true.
Proof.
  intros H HC HS (b & ->). destruct (sign_parse _ _ _ _ _ _ H HC HS) as (t & HP & HA & _).
  destruct (sign_compact _ _ _ _ _ _ H) as (k0 & sig & _ & HM & HT).
  unfold go_verify. rewrite HP, (compact_split _ _ _ _ HT), HA. apply verify_genuine. exists sig. rewrite <- !b64url_nopad_rfc, raw_round.
  split; [reflexivity|]. unfold method_sign in HM. destruct (hs_method alg) as [mac|] eqn:EH.
  - apply hs_method_spec in EH. destruct EH as (Hh & B & HH & ->). injection HM as <-. eapply gn_secret; [exact HH|].
    apply hmac_rfc; [eapply hs_length; exact HH|]. unfold to_sign. rewrite <- !b64url_nopad_rfc. reflexivity.
  - unfold signs_with in HM. cbn [other_key] in HM. rewrite !andb_false_r in HM. discriminate HM.
Qed.
(* public keys: if the library accepts its own signatures under [k'] *)
Lemma sign_verify_public A alg kid cs k k' tok : go_sign A alg kid cs (Some k) = Some tok -> writable_claims cs -> small_claims cs ->
  (forall msg sig, as_sign A alg k msg = Some sig -> as_verify A alg k' msg sig = true) -> (forall b, k <> KBytes b) -> verifies_with alg k' = true -> go_verify A tok k' = true.
Proof.
  intros H HC HS HAS HNB HV. destruct (sign_parse _ _ _ _ _ _ H HC HS) as (t & HP & HA & _).
  destruct (sign_compact _ _ _ _ _ _ H) as (k0 & sig & E0 & HM & HT). injection E0 as <-.
  unfold go_verify. rewrite HP, (compact_split _ _ _ _ HT), HA. unfold method_verify. rewrite <- !b64url_nopad_rfc, raw_round.
  unfold method_sign in HM. destruct (hs_method alg) as [mac|] eqn:EH.
  - destruct k as [b|n|n|n]; try discriminate HM. exfalso. apply (HNB b). reflexivity.
  - destruct (signs_with alg k); [|discriminate HM]. rewrite HV. cbn [andb]. apply HAS. unfold to_sign in HM. rewrite <- !b64url_nopad_rfc in HM. exact HM.
Qed.

(** ** Accepted tokens *)
Lemma verify_inv A raw k : go_verify A raw k = true -> exists h p s t alg x,
  split_on "." raw = [h; p; s] /\ go_parse raw = PToken t /\ jstr "alg" (jt_header t) = Some alg /\ raw_decode s = Some x /\
  genuine A alg k (h ++ "." ++ p) x.
Proof.
  unfold go_verify. destruct (go_parse raw) as [| |t] eqn:EP; try discriminate. destruct (split_on "." raw) as [|h [|p [|s [|]]]] eqn:ES; try discriminate.
  destruct (jstr "alg" (jt_header t)) as [alg|] eqn:EA; [|discriminate]. intros H. apply verify_genuine in H. destruct H as (x & HX & HG).
  exists h, p, s, t, alg, x. auto 6.
Qed.
Lemma rsa_private_never A raw n : go_verify A raw (KRsaPriv n) = false.
Proof.
  destruct (go_verify A raw (KRsaPriv n)) eqn:E; [|reflexivity]. exfalso. apply verify_inv in E.
  destruct E as (h & p & s & t & alg & x & _ & _ & _ & _ & HG). inversion HG.
Qed.
