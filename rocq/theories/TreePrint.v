(** Lemmas: the documents the library writes, as its decoder for structs sees them. *)
From Coq Require Import Lia.
From Verif Require Import GoStr Codec StrFacts Core Json JsonParse JsonFull JsonFacts JsonTree.
From Verif Require UtilsFacts.
Local Open Scope string_scope.

Fixpoint printed (v : json) : jtree :=
  match v with
  | JSNull => TNull
  | JSBool b => TBool b
  | JSInt z => TNum (Some z)
  | JSString s => TStr (jescape s) (to_valid s)
  | JSObj l => TObj (map (fun p => (to_valid (fst p), printed (snd p))) l)
  end.
Definition printed_m (p : string * json) : string * jtree := (to_valid (fst p), printed (snd p)).

Lemma digits_skip' d r : plain_digits d -> jskip (d ++ r) = (d ++ r)%string /\
  exists a t, (d ++ r)%string = String a t /\ Ascii.eqb a dquote = false /\ Ascii.eqb a "{" = false /\ Ascii.eqb a "[" = false /\
    Ascii.eqb a "n" = false /\ Ascii.eqb a "t" = false /\ Ascii.eqb a "f" = false.
Proof.
  intros H. destruct (plain_first d H) as (a & q & -> & HD). cbn [append].
  split; [bytes a; (reflexivity || discriminate HD)|]. exists a, (q ++ r)%string. split; [reflexivity|].
  bytes a; try discriminate HD; repeat split.
Qed.
Lemma tword_app w v s : tword w v (w ++ s) = Some (v, s).
Proof. unfold tword. rewrite prefix_app, substring_app. reflexivity. Qed.
Lemma raw_escape s r : substring 0 (String.length (jescape s ++ String dquote r) - String.length r - 1) (jescape s ++ String dquote r) = jescape s.
Proof.
  rewrite length_app. cbn [String.length]. replace (String.length (jescape s) + S (String.length r) - String.length r - 1)%nat with (String.length (jescape s)) by lia.
  generalize (jescape s) as x. induction x as [|a x IH]; [destruct r; reflexivity|]. cbn [String.length append substring]. rewrite IH. reflexivity.
Qed.
Lemma tnumber_itoa z r : is_int64 z = true -> stops r -> tnumber (itoa z ++ r) = Some (Some z, r).
Proof.
  intros H HS. pose proof (atoi_itoa z H) as HA.
  assert (OK : forall d, plain_digits d -> int_part d = true).
  { intros d [_ HP]. destruct d as [|a [|b d]]; auto. apply negb_true_iff, Ascii.eqb_neq. exact HP. }
  assert (FP : frac_part r = Some ("", r)) by (destruct r as [|b r]; [reflexivity|]; destruct HS as [->| ->]; reflexivity).
  assert (EP : exists x, exp_part r = Some (x, r)) by (destruct r as [|b r]; [eexists; reflexivity|]; destruct HS as [->| ->]; eexists; reflexivity).
  destruct EP as [x EP].
  destruct (itoa_form z) as (d & HP & [(_ & E & _)|(_ & E & _)]); rewrite E in *.
  - destruct (plain_first d HP) as (a & q & Ed & HD).
    assert (X : (match (d ++ r)%string with String "-" t => (true, t) | _ => (false, (d ++ r)%string) end) = (false, (d ++ r)%string)).
    { rewrite Ed. cbn [append]. bytes a; (reflexivity || discriminate HD). }
    unfold tnumber. rewrite X, span_plain by (auto; apply HP). rewrite (OK d HP), FP, EP.
    rewrite (atoi_plain d HP) in HA. destruct (digits_val 0 d) as [m|]; [|discriminate HA]. rewrite seqb_refl. cbn [andb].
    destruct (is_int64 m) eqn:E1; [|discriminate HA]. injection HA as ->. reflexivity.
  - unfold tnumber. cbn [append]. rewrite span_plain by (auto; apply HP). rewrite (OK d HP), FP, EP.
    rewrite (atoi_minus d HP) in HA. destruct (digits_val 0 d) as [m|]; [|discriminate HA]. rewrite seqb_refl. cbn [andb].
    destruct (is_int64 (- m)) eqn:E1; [|discriminate HA]. injection HA as <-. reflexivity.
Qed.

Lemma tvalue_print v : writable v -> forall n r, (jsize v <= n)%nat -> stops r ->
  tvalue n (jprint v ++ r) = Some (printed v, r).
Proof.
  induction v as [| b | z | s | l IH] using json_ind2; intros HW n r HN HS;
    (destruct n as [|n]; [simpl in HN; lia|]).
  - exact (tword_app "null" TNull r).
  - destruct b; [exact (tword_app "true" (TBool true) r)|exact (tword_app "false" (TBool false) r)].
  - inversion HW; subst. cbn [jprint]. pose proof (tnumber_itoa z r H0 HS) as HJ.
    cbn [tvalue]. destruct (itoa_form z) as (d & HP & [(_ & E & _)|(_ & E & _)]); rewrite E in *.
    + destruct (digits_skip' d r HP) as (-> & a & t & EQ & Q1 & Q2 & Q6 & Q3 & Q4 & Q5). rewrite EQ in *.
      rewrite Q1, Q2, Q6, Q3, Q4, Q5, HJ. reflexivity.
    + cbn [append] in *.
      change (match tnumber (String "-" (d ++ r)) with Some (z0, r') => Some (TNum z0, r') | None => None end
              = Some (TNum (Some z), r)).
      rewrite HJ. reflexivity.
  - inversion HW; subst. cbn [jprint]. unfold jstring.
    change ((String dquote (jescape s ++ String dquote "") ++ r)%string)
      with (String dquote ((jescape s ++ String dquote "") ++ r)%string).
    rewrite app_assoc_s. cbn [append]. cbn [tvalue].
    change (jskip (String dquote (jescape s ++ String dquote r))) with (String dquote (jescape s ++ String dquote r)).
    cbv iota. change (Ascii.eqb dquote dquote) with true. cbv iota. rewrite jliteral_escape. cbn [printed]. do 3 f_equal.
    apply raw_escape.
  - inversion HW as [| | | |l' HF]; subst. rewrite jsize_obj in HN.
    destruct l as [|p l]; [reflexivity|].
    rewrite jprint_obj. 
    assert (HM : forall l p n, Forall (fun p => writable (snd p) -> forall n r, (jsize (snd p) <= n)%nat -> stops r ->
          tvalue n (jprint (snd p) ++ r) = Some (printed (snd p), r)) (p :: l) ->
        Forall (fun p => writable (snd p)) (p :: l) ->
        (msize (p :: l) <= n)%nat -> tmembers n (jmember p ++ jrest l ++ "}" ++ r) = Some (map printed_m (p :: l), r)).
    { clear. induction l as [|p' l IHl]; intros p n HI HF HN.
      - rewrite msize_cons in HN. destruct n as [|n]; [lia|]. inversion HI; subst. inversion HF; subst.
        destruct p as [k v]. cbn [fst snd] in *. unfold jmember, jstring, jrest. cbn [sep_cons append].
        change ((String dquote (jescape k ++ String dquote "") ++ ":" ++ jprint v) ++ String "}" r)%string
          with (String dquote (((jescape k ++ String dquote "") ++ ":" ++ jprint v) ++ String "}" r))%string.
        rewrite !app_assoc_s. cbn [append fst snd]. cbn [tmembers].
        change (jskip (String dquote (jescape k ++ String dquote (String ":" (jprint v ++ String "}" r)))))
          with (String dquote (jescape k ++ String dquote (String ":" (jprint v ++ String "}" r)))).
        cbv iota. change (Ascii.eqb dquote dquote) with true. cbv iota. rewrite jliteral_escape.
        change (jskip (String ":" (jprint v ++ String "}" r))) with (String ":" (jprint v ++ String "}" r)).
        cbv iota. change (Ascii.eqb ":" ":") with true. cbv iota.
        rewrite H1; [|auto|lia|right; reflexivity].
        reflexivity.
      - rewrite msize_cons in HN. destruct n as [|n]; [lia|]. inversion HI; subst. inversion HF; subst.
        destruct p as [k v]. cbn [fst snd] in *. unfold jmember at 1, jstring, jrest. cbn [sep_cons].
        fold (jrest l). cbn [append].
        change ((String dquote (jescape k ++ String dquote "") ++ ":" ++ jprint v) ++
                 (String "," (jmember p' ++ jrest l)) ++ String "}" r)%string
          with (String dquote (((jescape k ++ String dquote "") ++ ":" ++ jprint v) ++ String "," ((jmember p' ++ jrest l) ++ String "}" r)))%string.
        rewrite !app_assoc_s. cbn [append fst snd]. cbn [tmembers].
        set (R := (jmember p' ++ jrest l ++ String "}" r)%string).
        change (jskip (String dquote (jescape k ++ String dquote (String ":" (jprint v ++ String "," R)))))
          with (String dquote (jescape k ++ String dquote (String ":" (jprint v ++ String "," R)))).
        cbv iota. change (Ascii.eqb dquote dquote) with true. cbv iota. rewrite jliteral_escape.
        change (jskip (String ":" (jprint v ++ String "," R))) with (String ":" (jprint v ++ String "," R)).
        cbv iota. change (Ascii.eqb ":" ":") with true. cbv iota.
        rewrite H1; [|auto|lia|left; reflexivity].
        change (jskip (String "," R)) with (String "," R). cbv iota. change (Ascii.eqb "," "}") with false.
        change (Ascii.eqb "," ",") with true. cbv iota. 
        assert (HR : tmembers n R = Some (map printed_m (p' :: l), r)).
        { apply (IHl p' n); auto. lia. }
        rewrite HR. reflexivity. }
    assert (E : (("{" ++ jmember p ++ jrest l ++ "}") ++ r)%string =
                String "{" (jmember p ++ jrest l ++ "}" ++ r)) by (cbn [append]; rewrite !app_assoc_s; reflexivity).
    rewrite E. specialize (HM l p n IH HF ltac:(lia)).
    assert (X : exists q, (jmember p ++ jrest l ++ "}" ++ r)%string = String dquote q).
    { destruct p as [k v]. unfold jmember, jstring. cbn [append]. eauto. }
    destruct X as [q X]. rewrite X in *. cbn [tvalue].
    change (jskip (String "{" (String dquote q))) with (String "{" (String dquote q)). cbv iota.
    change (Ascii.eqb "{" dquote) with false. change (Ascii.eqb "{" "{") with true. cbv iota.
    change (jskip (String dquote q)) with (String dquote q). cbv iota. change (Ascii.eqb dquote "}") with false. cbv iota.
    rewrite HM. reflexivity.
Qed.

Lemma tree_print v : writable v -> (tdepth (printed v) <= max_nesting)%N -> tree_of_text (jprint v) = Some (printed v).
Proof.
  intros H HD. unfold tree_of_text. pose proof (tvalue_print v H (S (String.length (jprint v))) "") as HJ.
  rewrite app_nil_r_s in HJ. rewrite HJ; [rewrite (proj2 (N.leb_le _ _) HD); reflexivity| |exact I].
  pose proof (jsize_length v). lia.
Qed.
Lemma b64_prefix_encode al s : b64_prefix al (b64_encode al s) = s.
Proof.
  induction s as [|a|a b|a b c s IH] using UtilsFacts.string_ind3.
  - reflexivity.
  - simpl. rewrite !UtilsFacts.char_sx_char. destruct a. reflexivity.
  - simpl. rewrite !UtilsFacts.char_sx_char. rewrite UtilsFacts.sx_char_ne_pad. destruct a, b. reflexivity.
  - simpl. rewrite !UtilsFacts.char_sx_char. rewrite !UtilsFacts.sx_char_ne_pad. rewrite IH. destruct a, b, c. reflexivity.
Qed.
Lemma b64_bytes_encode al s : b64_bytes al (b64_encode al s) = s.
Proof. unfold b64_bytes. rewrite UtilsFacts.strip_nl_encode. apply b64_prefix_encode. Qed.
