(** * Property theorems about JSON: C86.

    What a JSON text is, what its literals stand for and what Go keeps of them is written
    down in JsonSpec.v, after RFC 8259, RFC 3629 and IEEE 754. *)
From Coq Require Import Lia Nnat.
From Verif Require Import GoStr Codec Json StrFacts Core JsonParse JsonFull CodecSpec JsonSpec JsonFacts JsonFloat JsonRead JsonTree TreeRead DecodeFacts.

(** ** C86 JSON is read and written as RFC 8259 has it. *)

(* The headers of tokens: exactly the JSON texts are read, with exactly their meaning. *)
Theorem C86_header : forall s v, unmarshal s = Some v <-> reads_as s v.
Proof. exact unmarshal_iff. Qed.
Print Assumptions C86_header.

(* The claims of tokens: exactly the texts that begin with a JSON object. *)
Theorem C86_claims : forall s l, decode_one s = Some (FObj l) <-> begins_with s (FObj l).
Proof. exact decode_object_iff. Qed.
Print Assumptions C86_claims.

(* Encoded requests: exactly the JSON texts (what becomes of their members is C90). *)
Theorem C86_requests : forall s, (exists t, tree_of_text s = Some t) <-> exists x, go_text s x.
Proof.
  intros s. split.
  - intros [t H]. apply tree_text_iff in H. destruct H as (x & H & _). eauto.
  - intros [x H]. exists (tree_of x). apply tree_text_iff. exists x. split; [exact H|apply looks_tree].
Qed.
Print Assumptions C86_requests.

(* A text has at most one meaning. *)
Theorem C86_one_meaning : forall s,
  (forall v v', reads_as s v -> reads_as s v' -> v = v') /\
  (forall l l', begins_with s (FObj l) -> begins_with s (FObj l') -> l = l') /\
  (forall l l', reads_object s l -> reads_object s l' -> l = l').
Proof.
  intros s. split; [|split].
  - intros v v' H H'. apply unmarshal_iff in H, H'. congruence.
  - intros v v' H H'. apply decode_object_iff in H, H'. congruence.
  - intros v v' H H'. apply jparse_iff in H, H'. congruence.
Qed.
Print Assumptions C86_one_meaning.

(* What goidc writes is JSON, with the same members in the same order; text that is not
   UTF-8 is repaired. *)
Inductive same : json -> json -> Prop :=
| same_null : same JSNull JSNull
| same_bool b : same (JSBool b) (JSBool b)
| same_int z : same (JSInt z) (JSInt z)
| same_str s t : repaired s t -> same (JSString s) (JSString t)
| same_obj l l' : Forall2 (fun p q => repaired (fst p) (fst q) /\ same (snd p) (snd q)) l l' -> same (JSObj l) (JSObj l').
Inductive fits : json -> Prop :=
| fits_null : fits JSNull
| fits_bool b : fits (JSBool b)
| fits_int z : (- 2 ^ 63 <= z < 2 ^ 63)%Z -> fits (JSInt z)
| fits_str s : fits (JSString s)
| fits_obj l : Forall (fun p => fits (snd p)) l -> fits (JSObj l).
Lemma fits_writable v : fits v -> writable v.
Proof.
  induction v using json_ind2; intros HF; inversion HF; subst; constructor.
  - apply int64_range. assumption.
  - apply Forall_forall. intros p Hp. rewrite Forall_forall in *. auto.
Qed.
Lemma repair_same v : same v (repair v).
Proof.
  induction v using json_ind2; cbn [repair]; constructor; auto using to_valid_repaired.
  induction l as [|p l IH]; cbn [map]; constructor; inversion H; subst; auto. split; [apply to_valid_repaired|]. assumption.
Qed.
Theorem C86_written : forall v, fits v -> exists x v', json_text (jprint v) x /\ simple x v' /\ same v v'.
Proof.
  intros v H. pose proof (jparse_print v (fits_writable v H)) as HP. apply jparse_iff in HP. destruct HP as (x & HT & HS).
  exists x, (repair v). repeat split; auto using repair_same.
Qed.
Print Assumptions C86_written.

(* Whole numbers up to 2^53 are kept exactly. *)
Theorem C86_whole_numbers_are_kept : forall neg d z,
  plain_int d -> (decimal d <= 2 ^ 53)%Z -> float_int (Number neg d "" None) z -> z = signed neg (decimal d).
Proof.
  intros neg d z HP HB (f & HN & _ & HZ). cbn [n_int n_frac n_minus] in *. rewrite app_nil_r_s in HN. unfold scale in HN. cbn in HN.
  pose proof (decimal_nonneg d (proj2 (proj1 HP))) as H0. set (D := decimal d) in *. clearbody D.
  change (10 ^ 0)%Z with 1%Z in HN. rewrite Z.mul_1_r in HN.
  assert (PK : (0 < 2 ^ 1074)%Z) by (apply pow_pos; lia).
  assert (EX : nearest D 1 (D * 2 ^ 1074)%Z).
  { assert (DB : double (D * 2 ^ 1074)).
    { destruct (Z.eq_dec D (2 ^ 53)) as [->|]; [exists (2 ^ 52)%Z, 1075%Z|exists D, 1074%Z]; repeat split; lia. }
    split; [exact DB|]. split; intros d' X; [lia|]. intros N E. exfalso. apply N. set (K := (2 ^ 1074)%Z) in *. clearbody K. lia. }
  rewrite (nearest_unique D 1 f _ ltac:(lia) HN EX) in HZ. rewrite Z.div_mul in HZ by lia. subst z.
  replace ((- 2 ^ 63 <=? signed neg D)%Z && (signed neg D <? 2 ^ 63)%Z) with true; [reflexivity|].
  symmetry. apply andb_true_iff. split; [apply Z.leb_le|apply Z.ltb_lt]; unfold signed; destruct neg; lia.
Qed.
Print Assumptions C86_whole_numbers_are_kept.

(* ... greater ones are not: a claim of 2^53 + 1 becomes 2^53. *)
Theorem C86_larger_numbers_refuted : exists d z,
  plain_int d /\ decimal d = (2 ^ 53 + 1)%Z /\ reads_as d (FNum z) /\ z <> decimal d.
Proof.
  exists "9007199254740993", (2 ^ 53)%Z. split; [|split; [reflexivity|split; [apply unmarshal_iff; vm_compute; reflexivity|discriminate]]].
  split; [|discriminate]. split; [discriminate|]. cbn [list_ascii_of_string]. repeat (apply Forall_cons; [simpl; auto 15|]). constructor.
Qed.
Print Assumptions C86_larger_numbers_refuted.

(* Go gives up on a text in which more than 10000 arrays and objects are inside one another,
   wherever it is read; RFC 8259 (section 9) lets it, and the texts are JSON. *)
Lemma one_nesting s x x' : json_text s x -> json_text s x' -> nesting x = nesting x'.
Proof.
  intros (w1 & t & w2 & -> & W1 & HV & W2) (w1' & t' & w2' & E & W1' & HV' & W2').
  pose proof (proj1 tree_complete t x HV _ (String.length (w1 ++ t ++ w2)) w1 w2 (looks_tree x) W1) as H.
  pose proof (proj1 tree_complete t' x' HV' _ (String.length (w1 ++ t ++ w2)) w1' w2' (looks_tree x') W1') as H'.
  rewrite <- E in H'.
  assert (EN : forall w, ws w -> ends w) by (intros w W; rewrite <- (app_nil_r_s w); apply ends_ws; [exact W|apply ends_nil]).
  specialize (H (EN _ W2) ltac:(rewrite !length_app; lia)). specialize (H' (EN _ W2') ltac:(rewrite E, !length_app; lia)).
  rewrite <- (looks_depth _ _ (looks_tree x)), <- (looks_depth _ _ (looks_tree x')). congruence.
Qed.
Lemma too_deep_unread s x : json_text s x -> (nesting x > 10000)%N -> forall y, ~ go_text s y.
Proof. intros HT HN y [HT' HL]. pose proof (one_nesting s x y HT HT'). unfold within_limit in HL. lia. Qed.
Theorem C86_too_deep_is_refused :
  (forall s x, json_text s x -> (nesting x > 10000)%N -> unmarshal s = None /\ tree_of_text s = None) /\
  (forall w t r m, ws w -> value_text t (RObj m) -> (nesting (RObj m) > 10000)%N -> forall l, decode_one (w ++ t ++ r) <> Some (FObj l)).
Proof.
  split.
  - intros s x HT HN. pose proof (too_deep_unread s x HT HN) as NG. split.
    + destruct (unmarshal s) as [v|] eqn:E; [|reflexivity]. exfalso. apply unmarshal_iff in E. destruct E as (y & HG & _). exact (NG y HG).
    + destruct (tree_of_text s) as [v|] eqn:E; [|reflexivity]. exfalso. apply tree_text_iff in E. destruct E as (y & HG & _). exact (NG y HG).
  - intros w t r m W HV HN l H. apply decode_object_iff in H. destruct H as (w' & t' & r' & y & ES & W' & HV' & HL & HK).
    inversion HK as [| | | | |m' l' HF]; subst.
    pose proof (object_no_ends_tree t m r _ (String.length (w ++ t ++ r)) w HV (looks_tree (RObj m)) W ltac:(rewrite !length_app; lia)) as H1.
    pose proof (object_no_ends_tree t' m' r' _ (String.length (w ++ t ++ r)) w' HV' (looks_tree (RObj m')) W' ltac:(rewrite ES, !length_app; lia)) as H2.
    rewrite <- ES, H1 in H2. injection H2 as E1 _. unfold within_limit in HL.
    rewrite <- (looks_depth _ _ (looks_tree (RObj m))) in HN. rewrite <- (looks_depth _ _ (looks_tree (RObj m'))) in HL.
    cbn [tree_of] in HN, HL. rewrite E1 in HN. lia.
Qed.
Print Assumptions C86_too_deep_is_refused.

(* The limit is met exactly: n arrays inside one another are read if n is 1 to 10000. *)
Fixpoint brackets (n : nat) : string := match n with O => "" | S k => "[" ++ brackets k ++ "]" end.
Fixpoint arrays (n : nat) : rvalue := match n with O => RArr [] | S k => RArr [arrays k] end.
Lemma brackets_text n : value_text (brackets (S n)) (arrays n) /\ nesting (arrays n) = N.of_nat (S n) /\ exists v, keeps (arrays n) v.
Proof.
  induction n as [|n (HV & HN & v & HK)].
  - split; [apply (vt_arr_0 ""); constructor|]. split; [reflexivity|]. exists (FArr []). constructor. constructor.
  - split; [|split].
    + cbn [arrays]. change (brackets (S (S n))) with ("[" ++ brackets (S n) ++ "]")%string. apply vt_arr.
      rewrite <- (app_nil_r_s (brackets (S n))). apply (el_last "" (brackets (S n)) ""); [constructor|exact HV|constructor].
    + cbn [arrays nesting map fold_right]. rewrite HN. lia.
    + exists (FArr [v]). cbn [arrays]. constructor. constructor; [exact HK|constructor].
Qed.
Lemma brackets_json n : json_text (brackets (S n)) (arrays n).
Proof. exists "", (brackets (S n)), "". rewrite app_nil_r_s. split; [reflexivity|]. split; [constructor|]. split; [apply brackets_text|constructor]. Qed.
Theorem C86_nesting_limit : forall n, (exists v, unmarshal (brackets n) = Some v) <-> (1 <= N.of_nat n <= 10000)%N.
Proof.
  intros [|n]; [split; [intros [v H]; discriminate H|lia]|]. destruct (brackets_text n) as (_ & HN & v & HK). split.
  - intros [u H]. apply unmarshal_iff in H. destruct H as (y & [HT HL] & _). pose proof (one_nesting _ _ _ (brackets_json n) HT) as E.
    unfold within_limit in HL. rewrite <- E, HN in HL. lia.
  - intros H. exists v. apply unmarshal_iff. exists (arrays n). split; [|exact HK]. split; [apply brackets_json|]. unfold within_limit. rewrite HN. lia.
Qed.
Print Assumptions C86_nesting_limit.

(* So not every JSON text is read. *)
Theorem C86_every_text_is_read_refuted : exists s x, json_text s x /\ unmarshal s = None /\ tree_of_text s = None.
Proof.
  assert (X : exists k, N.of_nat k = 10000%N) by (exists (N.to_nat 10000); apply Nnat.N2Nat.id). destruct X as [k K].
  exists (brackets (S k)), (arrays k). split; [apply brackets_json|].
  apply (proj1 C86_too_deep_is_refused _ (arrays k) (brackets_json k)).
  rewrite (proj1 (proj2 (brackets_text k))). lia.
Qed.
Print Assumptions C86_every_text_is_read_refuted.

Definition sample : string :=
  " { " ++ quoted "a\u00e9\ud83d\ude00\ud800" ++ " : [1.5e3 ,-2, null,true , {} ],
    " ++ quoted "\n\/" ++ ":false, " ++ quoted "n" ++ " : 0.1e-5 } ".
Example C86_example :
  reads_as sample (FObj [("aé😀" ++ fffd, FArr [FNum 1500; FNum (-2); FNull; FBool true; FObj []]); (String "010" "/", FBool false); ("n", FNum 0)]) /\
  begins_with (sample ++ "trailing") (FObj [("aé😀" ++ fffd, FArr [FNum 1500; FNum (-2); FNull; FBool true; FObj []]); (String "010" "/", FBool false); ("n", FNum 0)]) /\
  reads_object ("{" ++ quoted "max_age" ++ ":-60}") [("max_age", JSInt (-60))] /\
  (forall s, In s ["[1,]"; "01"; "1."; ".5"; "+1"; "nul"; "{" ++ quoted "a" ++ " 1}"; "1e999"; "tru e"; quoted "\x"; ""; "1 2"] -> forall v, ~ reads_as s v) /\
  jprint (JSObj [("a", JSString (String "255" "<")); ("b", JSInt (-1))]) = "{" ++ quoted "a" ++ ":" ++ quoted "\ufffd\u003c" ++ "," ++ quoted "b" ++ ":-1}".
Proof.
  split; [apply unmarshal_iff; vm_compute; reflexivity|]. split; [apply decode_object_iff; vm_compute; reflexivity|].
  split; [apply jparse_iff; vm_compute; reflexivity|]. split; [|vm_compute; reflexivity].
  intros s H v HR. apply unmarshal_iff in HR. simpl in H.
  repeat (destruct H as [<-|H]; [vm_compute in HR; discriminate HR|]). destruct H.
Qed.
