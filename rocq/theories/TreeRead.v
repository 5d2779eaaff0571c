(** * The reader of JsonTree.v and the grammar. *)
From Coq Require Import Lia.
From Verif Require Import GoStr Codec Json StrFacts Core JsonParse JsonFull JsonTree CodecSpec HttpSpec JsonSpec JsonFacts JsonGram JsonFloat JsonRead.

(** A document and the tree the decoder sees. *)
Definition int_of (x : number) : option Z :=
  let z := signed (n_minus x) (decimal (n_int x)) in
  match n_frac x, n_exp x with
  | "", None => if is_int64 z then Some z else None
  | _, _ => None
  end.
Inductive looks : rvalue -> jtree -> Prop :=
| lk_null : looks RNull TNull
| lk_bool b : looks (RBool b) (TBool b)
| lk_num x z : z = int_of x -> looks (RNum x) (TNum z)
| lk_str raw s : looks (RStr raw s) (TStr raw s)
| lk_arr l l' : Forall2 looks l l' -> looks (RArr l) (TArr l')
| lk_obj l l' : Forall2 (fun p q => fst p = fst q /\ looks (snd p) (snd q)) l l' -> looks (RObj l) (TObj l').
Lemma tword_iff w v s v' r : tword w v s = Some (v', r) <-> v' = v /\ s = (w ++ r)%string.
Proof.
  unfold tword. destruct (String.prefix w s) eqn:E.
  - split; [intros H; injection H as <- <-; split; [reflexivity|]; apply word_cut; auto|].
    intros [-> H]. apply word_cut in H. destruct H as [_ <-]. reflexivity.
  - split; [discriminate|]. intros [-> H]. apply word_cut in H. destruct H as [H _]. congruence.
Qed.
Lemma int_of_text tf te f x neg i r : fraction tf f -> exponent te x ->
  (if ((r =s? (tf ++ te ++ r)) && is_int64 (if neg : bool then (- decimal i)%Z else decimal i))%bool
   then Some (if neg then (- decimal i)%Z else decimal i) else None) = int_of (Number neg i f x).
Proof.
  intros HF HE. unfold int_of. cbn [n_frac n_exp n_minus n_int].
  assert (X : (r =s? (tf ++ te ++ r)) = true <-> tf = "" /\ te = "").
  { rewrite seqb_eq. split; [|intros [-> ->]; reflexivity]. intros H. apply (f_equal String.length) in H. rewrite !length_app in H.
    destruct tf, te; cbn in H; (split; [reflexivity|reflexivity]) || lia. }
  destruct (r =s? (tf ++ te ++ r)) eqn:E.
  - apply proj1 in X. destruct (X eq_refl) as [-> ->]. inversion HF; subst. inversion HE; subst. reflexivity.
  - cbn [andb]. destruct HF as [|d [N _]].
    + destruct HE; try reflexivity. exfalso. apply proj2 in X. discriminate (X (conj eq_refl eq_refl)).
    + destruct d; [congruence|reflexivity].
Qed.
Lemma tnumber_sound s z r : tnumber s = Some (z, r) -> exists t x, s = (t ++ r)%string /\ number_text t x /\ z = int_of x.
Proof.
  intros H. unfold tnumber in H.
  assert (ES : exists neg body, (match s with String "-" r0 => (true, r0) | _ => (false, s) end) = (neg, body) /\ s = ((if neg : bool then "-" else "") ++ body)%string).
  { destruct (minus_split s) as [[E [r0 ->]]|[E _]]; do 2 eexists; (split; [exact E|reflexivity]). }
  destruct ES as (neg & body & E & ->). rewrite E in H. clear E.
  destruct (span_digits body) as [i r1] eqn:ED. apply span_cut in ED. destruct ED as [-> HD].
  destruct (int_part i) eqn:EI; [|discriminate H]. apply int_part_iff in EI; [|assumption].
  destruct (frac_part r1) as [[f r2]|] eqn:EF; [|discriminate H]. apply frac_sound in EF. destruct EF as (tf & -> & HF).
  destruct (exp_part r2) as [[e r3]|] eqn:EE; [|discriminate H]. apply exp_sound in EE. destruct EE as (te & x & -> & HE & ->).
  rewrite (digits_decimal i) in H by assumption. cbv zeta in H. rewrite (int_of_text tf te f x neg i r3 HF HE) in H.
  injection H as <- <-. exists ((if neg then "-" else "") ++ i ++ tf ++ te)%string, (Number neg i f x). split.
  - rewrite !app_assoc_s. reflexivity.
  - split; [exists tf, te; auto|reflexivity].
Qed.
Lemma tnumber_complete t x r : number_text t x -> ends r -> tnumber (t ++ r) = Some (int_of x, r).
Proof.
  intros (tf & te & -> & HI & HF & HE) HR. destruct x as [neg i f x]. cbn [n_minus n_int n_frac n_exp] in *.
  pose proof (proj2 (proj1 HI)) as HD.
  destruct (exponent_not_digit te x r HE HR) as [N1 N2].
  assert (N3 : no_digit (tf ++ te ++ r)).
  { destruct HF as [|d _]; [exact N1|]. intros a y E. injection E as <- _. reflexivity. }
  assert (EM : (match (((if neg then "-" else "") ++ i ++ tf ++ te) ++ r)%string with String "-" t => (true, t) | _ => (false, (((if neg then "-" else "") ++ i ++ tf ++ te) ++ r)%string) end) =
    (neg, (i ++ tf ++ te ++ r)%string)).
  { rewrite !app_assoc_s. destruct neg; [reflexivity|]. cbn [append]. apply plain_not_minus. apply HI. }
  unfold tnumber. rewrite EM. rewrite span_join by assumption. rewrite (proj2 (int_part_iff i HD) HI).
  rewrite (frac_complete tf f (te ++ r)) by assumption.
  rewrite (exp_complete te x r) by (assumption || (apply ends_no_digit; assumption) || (apply ends_no_exp; assumption)). rewrite (digits_decimal i HD). cbv zeta.
  rewrite (int_of_text tf te f x neg i r HF HE). reflexivity.
Qed.
Lemma cut_prefix x r : substring 0 (String.length (x ++ String dquote r) - String.length r - 1) (x ++ String dquote r) = x.
Proof.
  rewrite length_app. cbn [String.length]. replace (String.length x + S (String.length r) - String.length r - 1)%nat with (String.length x) by lia.
  induction x as [|a x IH]; [destruct r; reflexivity|]. cbn [String.length append substring]. rewrite IH. reflexivity.
Qed.
Lemma tree_sound n :
  (forall s v r, tvalue n s = Some (v, r) -> exists w t x, s = (w ++ t ++ r)%string /\ ws w /\ value_text t x /\ looks x v) /\
  (forall s l r, tmembers n s = Some (l, r) -> exists t lx, s = (t ++ String "}" r)%string /\ members_text t lx /\
     Forall2 (fun p q => fst p = fst q /\ looks (snd p) (snd q)) lx l) /\
  (forall s l r, telements n s = Some (l, r) -> exists t lx, s = (t ++ String "]" r)%string /\ elements_text t lx /\ Forall2 looks lx l).
Proof.
  induction n as [|n (IHv & IHm & IHe)]; [repeat split; intros; discriminate|]. split; [|split].
  - intros s v r H. cbn [tvalue] in H. destruct (jskip_cut s) as (w & ES & W & NW). rewrite ES. clear ES.
    destruct (jskip s) as [|a s1]; [discriminate H|]. clear NW.
    assert (K : (exists t x, String a s1 = (t ++ r)%string /\ value_text t x /\ looks x v) ->
       exists w0 t x, (w ++ String a s1)%string = (w0 ++ t ++ r)%string /\ ws w0 /\ value_text t x /\ looks x v).
    { intros (t & x & -> & A & B). exists w, t, x. auto. }
    apply K. clear K W w.
    destruct (Ascii.eqb_spec a dquote) as [->|N1].
    { destruct (jliteral s1) as [[t r']|] eqn:E; [|discriminate H]. injection H as <- <-. apply jliteral_iff in E. destruct E as (x & -> & HC).
      exists (quoted x), (RStr x t). split; [symmetry; apply quoted_app|]. split; [constructor; exact HC|]. rewrite cut_prefix. constructor. }
    destruct (Ascii.eqb_spec a "{") as [->|N2].
    { destruct (jskip_cut s1) as (w & ES & W & NW). rewrite ES. clear ES. destruct (jskip s1) as [|b s2]; [discriminate H|].
      destruct (Ascii.eqb_spec b "}") as [->|N3].
      - injection H as <- <-. exists ("{" ++ w ++ "}")%string, (RObj []). split; [asc|]. split; constructor; [exact W|constructor].
      - destruct (tmembers n (String b s2)) as [[l r2]|] eqn:E; [|discriminate H]. injection H as <- <-. apply IHm in E.
        destruct E as (t & lx & -> & HM & HK). exists ("{" ++ (w ++ t) ++ "}")%string, (RObj lx). split; [asc|].
        split; constructor; [|exact HK]. apply members_ws; assumption. }
    destruct (Ascii.eqb_spec a "[") as [->|N4].
    { destruct (jskip_cut s1) as (w & ES & W & NW). rewrite ES. clear ES. destruct (jskip s1) as [|b s2]; [discriminate H|].
      destruct (Ascii.eqb_spec b "]") as [->|N3].
      - injection H as <- <-. exists ("[" ++ w ++ "]")%string, (RArr []). split; [asc|]. split; constructor; [exact W|constructor].
      - destruct (telements n (String b s2)) as [[l r2]|] eqn:E; [|discriminate H]. injection H as <- <-. apply IHe in E.
        destruct E as (t & lx & -> & HM & HK). exists ("[" ++ (w ++ t) ++ "]")%string, (RArr lx). split; [asc|].
        split; constructor; [|exact HK]. apply elements_ws; assumption. }
    destruct (Ascii.eqb_spec a "n") as [->|N5].
    { apply tword_iff in H. destruct H as [-> ->]. exists "null", RNull. repeat split; constructor. }
    destruct (Ascii.eqb_spec a "t") as [->|N6].
    { apply tword_iff in H. destruct H as [-> ->]. exists "true", (RBool true). repeat split; constructor. }
    destruct (Ascii.eqb_spec a "f") as [->|N7].
    { apply tword_iff in H. destruct H as [-> ->]. exists "false", (RBool false). repeat split; constructor. }
    destruct (tnumber (String a s1)) as [[z r']|] eqn:E; [|discriminate H]. injection H as <- <-.
    apply tnumber_sound in E. destruct E as (t & x & E & HT & ->). exists t, (RNum x). split; [exact E|]. split; constructor; [assumption|reflexivity].
  - intros s l r H. cbn [tmembers] in H. destruct (jskip_cut s) as (w1 & ES & W1 & _). rewrite ES. clear ES.
    destruct (jskip s) as [|q s1]; [discriminate H|].
    destruct (Ascii.eqb_spec q dquote) as [->|]; [|discriminate H].
    destruct (jliteral s1) as [[k r1]|] eqn:E1; [|discriminate H]. apply jliteral_iff in E1. destruct E1 as (x & -> & HC).
    destruct (jskip_cut r1) as (w2 & ES & W2 & _). rewrite ES. clear ES.
    destruct (jskip r1) as [|c r2]; [discriminate H|]. destruct (Ascii.eqb_spec c ":") as [->|]; [|discriminate H].
    destruct (tvalue n r2) as [[v r3]|] eqn:E2; [|discriminate H]. apply IHv in E2. destruct E2 as (w3 & t & y & -> & W3 & HV & HK).
    destruct (jskip_cut r3) as (w4 & ES & W4 & _). rewrite ES. clear ES.
    destruct (jskip r3) as [|e r4]; [discriminate H|].
    pose proof (mb_intro w1 x k w2 w3 t y w4 W1 HC W2 W3 HV W4) as HM.
    destruct (Ascii.eqb_spec e "}") as [->|].
    { injection H as <- <-. exists (w1 ++ quoted x ++ w2 ++ ":" ++ w3 ++ t ++ w4)%string, [(k, y)]. split; [asc|].
      split; [apply mb_last; exact HM|]. constructor; [split; auto|constructor]. }
    destruct (Ascii.eqb_spec e ",") as [->|]; [|discriminate H].
    destruct (tmembers n r4) as [[l' r5]|] eqn:E3; [|discriminate H]. injection H as <- <-. apply IHm in E3.
    destruct E3 as (t' & lx & -> & HM' & HK').
    exists ((w1 ++ quoted x ++ w2 ++ ":" ++ w3 ++ t ++ w4) ++ "," ++ t')%string, ((k, y) :: lx). split; [asc|].
    split; [apply mb_more; assumption|]. constructor; [split; auto|assumption].
  - intros s l r H. cbn [telements] in H. destruct (tvalue n s) as [[v r3]|] eqn:E2; [|discriminate H].
    apply IHv in E2. destruct E2 as (w3 & t & y & -> & W3 & HV & HK).
    destruct (jskip_cut r3) as (w4 & ES & W4 & _). rewrite ES. clear ES.
    destruct (jskip r3) as [|e r4]; [discriminate H|].
    destruct (Ascii.eqb_spec e "]") as [->|].
    { injection H as <- <-. exists (w3 ++ t ++ w4)%string, [y]. split; [asc|]. split; [apply el_last; auto|]. constructor; [auto|constructor]. }
    destruct (Ascii.eqb_spec e ",") as [->|]; [|discriminate H].
    destruct (telements n r4) as [[l' r5]|] eqn:E3; [|discriminate H]. injection H as <- <-. apply IHe in E3.
    destruct E3 as (t' & lx & -> & HM' & HK').
    exists (w3 ++ t ++ w4 ++ "," ++ t')%string, (y :: lx). split; [asc|].
    split; [apply el_more; assumption|]. constructor; assumption.
Qed.
Lemma tvalue_skip n s : tvalue n (jskip s) = tvalue n s.
Proof. destruct n; [reflexivity|]. cbn [tvalue]. rewrite jskip_idem. reflexivity. Qed.
Lemma tmembers_skip n s : tmembers n (jskip s) = tmembers n s.
Proof. destruct n; [reflexivity|]. cbn [tmembers]. rewrite jskip_idem. reflexivity. Qed.
Lemma telements_skip n s : telements n (jskip s) = telements n s.
Proof. destruct n; [reflexivity|]. cbn [telements]. rewrite tvalue_skip. reflexivity. Qed.
Ltac inv_looks := match goal with H : looks _ _ |- _ => inversion H; subst; clear H end.
Lemma tree_complete :
  (forall t x, value_text t x -> forall v n w r, looks x v -> ws w -> ends r -> (String.length t <= n)%nat ->
     tvalue n (w ++ t ++ r) = Some (v, r)) /\
  (forall t lx, elements_text t lx -> forall l n r, Forall2 looks lx l -> (String.length t < n)%nat ->
     telements n (t ++ String "]" r) = Some (l, r)) /\
  (forall t lx, members_text t lx -> forall l n r, Forall2 (fun p q => fst p = fst q /\ looks (snd p) (snd q)) lx l -> (String.length t <= n)%nat ->
     tmembers n (t ++ String "}" r) = Some (l, r)) /\
  (forall t k x, member_text t k x -> forall v n r e, looks x v -> (String.length t <= n)%nat -> In e [","; "}"]%char ->
     tmembers n (t ++ String e r) = if Ascii.eqb e "}" then Some ([(k, v)], r) else
       match tmembers (pred n) r with Some (l, r5) => Some ((k, v) :: l, r5) | None => None end).
Proof.
  apply text_ind.
  - intros v n w r HK W HR HL. inv_looks. destruct n; [cbn in HL; lia|]. cbn [tvalue]. rewrite jskip_app; [|exact W|nws].
    apply (proj2 (tword_iff "null" TNull _ _ r)). split; reflexivity.
  - intros v n w r HK W HR HL. inv_looks. destruct n; [cbn in HL; lia|]. cbn [tvalue]. rewrite jskip_app; [|exact W|nws].
    apply (proj2 (tword_iff "true" (TBool true) _ _ r)). split; reflexivity.
  - intros v n w r HK W HR HL. inv_looks. destruct n; [cbn in HL; lia|]. cbn [tvalue]. rewrite jskip_app; [|exact W|nws].
    apply (proj2 (tword_iff "false" (TBool false) _ _ r)). split; reflexivity.
  - (* numbers *)
    intros s x HX v n w r HK W HR HL. inv_looks. pose proof (vt_num s x HX) as HV. pose proof (value_length _ _ HV).
    destruct n; [lia|]. cbn [tvalue]. rewrite jskip_app; [|exact W|eapply value_not_ws; exact HV].
    destruct (number_first s x HX) as (a & t' & -> & HA). cbn [append].
    assert (NE : forall b, is_digit b = false -> b <> "-"%char -> Ascii.eqb a b = false).
    { intros b B1 B2. apply Ascii.eqb_neq. intros ->. destruct HA; congruence. }
    rewrite !NE by (reflexivity || discriminate). change (String a (t' ++ r)) with (String a t' ++ r)%string.
    rewrite (tnumber_complete _ x r HX HR). reflexivity.
  - intros s t HC v n w r HK W HR HL. inv_looks. destruct n; [cbn in HL; lia|]. cbn [tvalue]. rewrite quoted_app. rewrite jskip_app; [|exact W|nws].
    rewrite Ascii.eqb_refl. rewrite (proj2 (jliteral_iff _ t r)) by eauto. rewrite cut_prefix. reflexivity.
  - intros w0 W0 v n w r HK W HR HL. inv_looks. match goal with X : Forall2 _ [] _ |- _ => inversion X; subst end.
    destruct n; [cbn in HL; lia|]. cbn [tvalue append]. rewrite app_assoc_s. rewrite jskip_app; [|exact W|nws].
    change (Ascii.eqb "[" dquote) with false. change (Ascii.eqb "[" "{") with false. change (Ascii.eqb "[" "[") with true. cbv iota.
    rewrite jskip_app; [|exact W0|nws]. reflexivity.
  - intros s l HE IH v n w r HK W HR HL. inv_looks. destruct n as [|n]; [cbn in HL; lia|]. cbn [tvalue append]. rewrite app_assoc_s. rewrite jskip_app; [|exact W|nws].
    change (Ascii.eqb "[" dquote) with false. change (Ascii.eqb "[" "{") with false. change (Ascii.eqb "[" "[") with true. cbv iota.
    cbn [append String.length] in HL. rewrite length_app in HL. cbn in HL.
    destruct (elements_first s l r HE) as (a & t & E & N). cbn [append]. rewrite E. apply Ascii.eqb_neq in N. rewrite N. rewrite <- E, telements_skip.
    match goal with X : Forall2 looks l _ |- _ => rewrite (IH _ n r X) by lia end. reflexivity.
  - intros w0 W0 v n w r HK W HR HL. inv_looks. match goal with X : Forall2 _ [] _ |- _ => inversion X; subst end.
    destruct n; [cbn in HL; lia|]. cbn [tvalue append]. rewrite app_assoc_s. rewrite jskip_app; [|exact W|nws].
    change (Ascii.eqb "{" dquote) with false. change (Ascii.eqb "{" "{") with true. cbv iota.
    rewrite jskip_app; [|exact W0|nws]. reflexivity.
  - intros s l HE IH v n w r HK W HR HL. inv_looks. destruct n as [|n]; [cbn in HL; lia|]. cbn [tvalue append]. rewrite app_assoc_s. rewrite jskip_app; [|exact W|nws].
    change (Ascii.eqb "{" dquote) with false. change (Ascii.eqb "{" "{") with true. cbv iota.
    cbn [append String.length] in HL. rewrite length_app in HL. cbn in HL.
    destruct (members_first s l (String "}" r) HE) as (t & E). cbn [append]. rewrite E. change (Ascii.eqb dquote "}") with false. cbv iota. rewrite <- E, tmembers_skip.
    match goal with X : Forall2 _ l _ |- _ => rewrite (IH _ n r X) by lia end. reflexivity.
  - (* elements *)
    intros w1 s w2 x W1 HV IH W2 l n r HF HL. inversion HF as [|? v ? l' HK HF']; subst. inversion HF'; subst.
    rewrite !length_app in HL. destruct n as [|n]; [lia|]. cbn [telements].
    replace ((w1 ++ s ++ w2) ++ String "]" r)%string with (w1 ++ s ++ (w2 ++ String "]" r))%string by asc.
    rewrite (IH v n w1 _ HK W1) by (lia || (apply ends_ws; [exact W2|]; apply ends_in; simpl; tauto)).
    rewrite jskip_app; [|exact W2|nws]. reflexivity.
  - intros w1 s w2 x s' l0 W1 HV IH W2 HE IHe l n r HF HL. inversion HF as [|? v ? l' HK HF']; subst.
    rewrite !length_app in HL. cbn in HL. destruct n as [|n]; [lia|]. cbn [telements].
    replace ((w1 ++ s ++ w2 ++ "," ++ s') ++ String "]" r)%string with (w1 ++ s ++ (w2 ++ String "," (s' ++ String "]" r)))%string by asc.
    rewrite (IH v n w1 _ HK W1) by (lia || (apply ends_ws; [exact W2|]; apply ends_in; simpl; tauto)).
    rewrite jskip_app; [|exact W2|nws]. change (Ascii.eqb "," "]") with false. rewrite Ascii.eqb_refl. cbv iota.
    rewrite (IHe l' n r HF') by lia. reflexivity.
  - (* members *)
    intros m k x HM IH l n r HF HL. inversion HF as [|? [k' v] ? l' HK HF']; subst. inversion HF'; subst. cbn [fst snd] in HK. destruct HK as [<- HK].
    rewrite (IH v n r "}"%char HK HL) by (simpl; tauto). reflexivity.
  - intros m k x s' l0 HM IH HS IHs l n r HF HL. inversion HF as [|? [k' v] ? l' HK HF']; subst. cbn [fst snd] in HK. destruct HK as [<- HK].
    rewrite !length_app in HL. cbn in HL.
    replace ((m ++ "," ++ s') ++ String "}" r)%string with (m ++ String "," (s' ++ String "}" r))%string by asc.
    rewrite (IH v n _ ","%char HK) by (lia || (simpl; tauto)). change (Ascii.eqb "," "}") with false. cbv iota.
    rewrite (IHs l' (pred n) r HF') by lia. reflexivity.
  - intros w1 q k w2 w3 s x w4 W1 HC W2 W3 HV IH W4 v n r e HK HL HE.
    rewrite !length_app in HL. unfold quoted in HL. cbn in HL. rewrite !length_app in HL. cbn in HL. destruct n as [|n]; [lia|]. cbn [tmembers pred].
    replace ((w1 ++ quoted q ++ w2 ++ ":" ++ w3 ++ s ++ w4) ++ String e r)%string with
      (w1 ++ String dquote (q ++ String dquote (w2 ++ String ":" (w3 ++ s ++ (w4 ++ String e r)))))%string by asc.
    rewrite jskip_app; [|exact W1|nws]. rewrite Ascii.eqb_refl. rewrite (proj2 (jliteral_iff _ k (w2 ++ String ":" (w3 ++ s ++ (w4 ++ String e r))))) by eauto.
    rewrite jskip_app; [|exact W2|nws]. rewrite Ascii.eqb_refl.
    assert (E2 : In e [","; "]"; "}"]%char) by (simpl in *; tauto).
    rewrite (IH v n w3 (w4 ++ String e r)%string HK W3) by (lia || (apply ends_ws; [exact W4|]; apply ends_in; exact E2)).
    rewrite jskip_app; [|exact W4|apply not_ws_char; simpl in HE; destruct HE as [<-|[<-|[]]]; simpl; intuition discriminate].
    simpl in HE. destruct HE as [<-|[<-|[]]]; reflexivity.
Qed.
Lemma object_no_ends_tree t l r v n w : value_text t (RObj l) -> looks (RObj l) v -> ws w -> (String.length t <= n)%nat -> tvalue n (w ++ t ++ r) = Some (v, r).
Proof.
  intros HV HK W HL. pose proof (value_length _ _ HV). destruct n as [|n]; [lia|].
  inversion HV; subst; clear HV; inversion HK; subst; cbn [append String.length] in HL; rewrite length_app in HL; cbn in HL; cbn [tvalue append]; rewrite app_assoc_s;
    (rewrite jskip_app; [|exact W|nws]); change (Ascii.eqb "{" dquote) with false; change (Ascii.eqb "{" "{") with true; cbv iota.
  - match goal with X : Forall2 _ [] _ |- _ => inversion X; subst end. rewrite jskip_app; [|assumption|nws]. reflexivity.
  - match goal with X : members_text _ _ |- _ => destruct (members_first _ _ (String "}" r) X) as (t & E) end.
    cbn [append]. rewrite E. change (Ascii.eqb dquote "}") with false. cbv iota. rewrite <- E, tmembers_skip.
    match goal with X : Forall2 _ l _, Y : members_text _ _ |- _ => rewrite (proj1 (proj2 (proj2 tree_complete)) _ _ Y _ n r X) by lia end. reflexivity.
Qed.
Lemma looks_depth : forall x v, looks x v -> tdepth v = nesting x.
Proof.
  fix IH 1. intros x v H. destruct x as [|b|x|raw s|l|l]; inversion H as [|? |? ? ?|? ?|? l' HF|? l' HF]; subst; try reflexivity; cbn [tdepth nesting]; f_equal; clear H.
  - revert l' HF. induction l as [|x l IHl]; intros l' HF; inversion HF as [|? v ? l0 HV HF']; subst; [reflexivity|]. cbn [map fold_right].
    rewrite (IHl _ HF'), (IH x _ HV). reflexivity.
  - revert l' HF. induction l as [|[k x] l IHl]; intros l' HF; inversion HF as [|? [k' v] ? l0 HV HF']; subst; [reflexivity|]. cbn [map fold_right]. change (snd (k, x)) with x. cbn [snd fst] in HV. change (snd (k', v)) with v.
    rewrite (IHl _ HF'), (IH x _ (proj2 HV)). reflexivity.
Qed.
Lemma tree_text_iff s v : tree_of_text s = Some v <-> exists x, go_text s x /\ looks x v.
Proof.
  unfold tree_of_text, go_text, within_limit, json_text. split.
  - intros H. destruct (tvalue (S (String.length s)) s) as [[v' r]|] eqn:E; [|discriminate H].
    destruct (jskip r =s? "") eqn:E0; [|discriminate H]. cbn [andb] in H. destruct (N.leb (tdepth v') max_nesting) eqn:ED; [|discriminate H].
    injection H as ->. apply seqb_eq in E0. apply N.leb_le in ED.
    destruct (jskip_cut r) as (w & ES & W & _). rewrite E0, app_nil_r_s in ES. subst w.
    apply tree_sound in E. destruct E as (w & t & x & -> & W' & HV & HK). rewrite (looks_depth _ _ HK) in ED.
    exists x. split; [|exact HK]. split; [|exact ED]. exists w, t, r. auto.
  - intros (x & ((w1 & t & w2 & -> & W1 & HV & W2) & HD) & HK).
    rewrite (proj1 tree_complete t x HV v _ w1 w2 HK W1).
    + rewrite jskip_ws by exact W2. rewrite (looks_depth _ _ HK). apply N.leb_le in HD. fold max_nesting in HD. rewrite HD. reflexivity.
    + rewrite <- (app_nil_r_s w2). apply ends_ws; [exact W2|apply ends_nil].
    + rewrite !length_app. lia.
Qed.
