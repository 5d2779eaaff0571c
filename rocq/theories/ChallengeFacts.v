(** * Proofs about challenges *)
From Coq Require Import Lia.
From Verif Require Import GoStr Codec StrFacts CodecFacts OAuthError ChallengeSpec.

(** ** One reading *)

Lemma quoted_first a s v : quoted (String a s) v -> a <> dquote.
Proof. intros H. inversion H; subst; [assumption|discriminate]. Qed.

Lemma quoted_unique s v : quoted s v -> forall s' v' x x', quoted s' v' ->
  (s ++ String dquote x = s' ++ String dquote x')%string -> s = s' /\ v = v' /\ x = x'.
Proof.
  induction 1 as [|a s t HT HD HB H IH|a s t HT H IH]; intros s' v' x x' H' E.
  - destruct s' as [|b s']; [inversion H'; injection E as ->; auto|]. cbn [append] in E. injection E as <- _.
    contradiction (quoted_first _ _ _ H' eq_refl).
  - destruct s' as [|b s']; cbn [append] in E; injection E as Eb E; [contradiction (HD Eb)|]. subst b.
    inversion H'; subst; [|contradiction (HB eq_refl)].
    match goal with HQ : quoted s' _ |- _ => destruct (IH _ _ _ _ HQ E) as (-> & -> & ->) end. auto.
  - destruct s' as [|b s']; cbn [append] in E; injection E as Eb E; [discriminate Eb|]. subst b.
    inversion H'; subst; [congruence|]. cbn [append] in E. injection E as -> E.
    match goal with HQ : quoted ?u _ |- _ => destruct (IH _ _ _ _ HQ E) as (-> & -> & ->) end. auto.
Qed.

Lemma token_no c s : (forall a, token_char a -> a <> c) -> token s -> has_byte c s = false.
Proof.
  intros HC [_ HT]. destruct (has_byte c s) eqn:E; [|reflexivity]. apply has_byte_In in E.
  exfalso. exact (HC c (HT c E) eq_refl).
Qed.
Lemma token_char_not c : existsb (Ascii.eqb c) (list_ascii_of_string
    "!#$%&'*+-.^_`|~0123456789abcdefghijklmnopqrstuvwxyzABCDEFGHIJKLMNOPQRSTUVWXYZ") = false ->
  forall a, token_char a -> a <> c.
Proof.
  intros H a HA ->. assert (existsb (Ascii.eqb c) (list_ascii_of_string
    "!#$%&'*+-.^_`|~0123456789abcdefghijklmnopqrstuvwxyzABCDEFGHIJKLMNOPQRSTUVWXYZ") = true); [|congruence].
  apply existsb_exists. exists c. split; [exact HA|apply Ascii.eqb_refl].
Qed.
Lemma token_eq s : token s -> has_byte "=" s = false.
Proof. apply token_no. apply token_char_not. reflexivity. Qed.
Lemma token_space s : token s -> has_byte " " s = false.
Proof. apply token_no. apply token_char_not. reflexivity. Qed.

(** A prefix of bytes with a property, before a byte without it. *)
Lemma prefix_unique (P : ascii -> Prop) s s' a a' x x' :
  (forall b, In b (list_ascii_of_string s) -> P b) -> (forall b, In b (list_ascii_of_string s') -> P b) ->
  ~ P a -> ~ P a' -> (s ++ String a x = s' ++ String a' x')%string -> s = s' /\ a = a' /\ x = x'.
Proof.
  revert s'. induction s as [|c s IH]; intros s' HS HS' HA HA' E; destruct s' as [|c' s']; cbn [append] in E.
  - injection E as -> ->. auto.
  - injection E as -> _. contradiction HA. apply HS'. left. reflexivity.
  - injection E as <- _. contradiction HA'. apply HS. left. reflexivity.
  - injection E as -> E. destruct (IH s') as (-> & -> & ->); auto.
    + intros b HB. apply HS. right. exact HB.
    + intros b HB. apply HS'. right. exact HB.
Qed.

Lemma params_first p l : params p l -> exists a r, p = String a r /\ token_char a.
Proof.
  assert (G : forall n x, token n -> exists a r, (n ++ x)%string = String a r /\ token_char a).
  { intros [|a n] x [H1 H2]; [congruence|]. exists a, (n ++ x)%string. split; [reflexivity|]. apply H2. left. reflexivity. }
  intros []; apply G; assumption.
Qed.
Lemma token_not_blank a : token_char a -> ~ blank a.
Proof. intros H [E|E]; revert E; apply token_char_not; auto. Qed.

Lemma params_unique p l : params p l -> forall l', params p l' -> l = l'.
Proof.
  assert (HD : forall n s x n' s' x' v v', token n -> token n' -> quoted s v -> quoted s' v' ->
    (n ++ "=" ++ in_quotes s ++ x = n' ++ "=" ++ in_quotes s' ++ x')%string -> n = n' /\ v = v' /\ x = x').
  { intros n s x n' s' x' v v' HN HN' HQ HQ' E. cbn [append] in E.
    apply part_unique in E; [|apply token_eq; assumption|apply token_eq; assumption]. destruct E as [-> E].
    unfold in_quotes in E. cbn [append] in E. injection E as E. rewrite !app_assoc_s in E. cbn [append] in E.
    destruct (quoted_unique _ _ HQ _ _ _ _ HQ' E) as (_ & -> & ->). auto. }
  assert (HC : ~ blank ",") by (intros [E|E]; discriminate).
  induction 1 as [n s v HN HQ|n s v b1 b2 rest l HN HQ HB1 HB2 HP IH]; intros l' H'.
  - rewrite <- (app_nil_r_s (in_quotes s)) in H'. inversion H' as [n' s' v' HN' HQ' E|n' s' v' b1 b2 rest l0 HN' HQ' HB1 HB2 HP' E]; subst.
    + rewrite <- (app_nil_r_s (in_quotes s')) in E. destruct (HD _ _ _ _ _ _ _ _ HN' HN HQ' HQ E) as (-> & -> & _). reflexivity.
    + destruct (HD _ _ _ _ _ _ _ _ HN' HN HQ' HQ E) as (_ & _ & X). destruct b1; discriminate X.
  - inversion H' as [n' s' v' HN' HQ' E|n' s' v' b1' b2' rest' l0 HN' HQ' HB1' HB2' HP' E]; subst.
    + rewrite <- (app_nil_r_s (in_quotes s')) in E. destruct (HD _ _ _ _ _ _ _ _ HN' HN HQ' HQ E) as (_ & _ & X).
      destruct b1; discriminate X.
    + destruct (HD _ _ _ _ _ _ _ _ HN' HN HQ' HQ E) as (-> & -> & X). cbn [append] in X.
      destruct (prefix_unique blank _ _ _ _ _ _ HB1' HB1 HC HC X) as (-> & _ & Y).
      destruct (params_first _ _ HP) as (a & r & -> & HA), (params_first _ _ HP') as (a' & r' & -> & HA').
      destruct (prefix_unique blank _ _ _ _ _ _ HB2' HB2 (token_not_blank _ HA') (token_not_blank _ HA) Y) as (_ & -> & ->).
      rewrite (IH _ HP'). reflexivity.
Qed.

Lemma challenge_unique h s l s' l' : reads_challenge h s l -> reads_challenge h s' l' -> s = s' /\ l = l'.
Proof.
  intros (sp & p & -> & HT & HS & HP) (sp' & p' & E & HT' & HS' & HP'). cbn [append] in E.
  apply part_unique in E; [|apply token_space; assumption|apply token_space; assumption]. destruct E as [-> E].
  split; [reflexivity|].
  destruct (params_first _ _ HP) as (a & r & -> & HA), (params_first _ _ HP') as (a' & r' & -> & HA').
  assert (HB : forall a, token_char a -> a <> " "%char) by (apply token_char_not; reflexivity).
  destruct (prefix_unique (fun a => a = " "%char) _ _ _ _ _ _ HS HS' (HB _ HA) (HB _ HA') E) as (_ & -> & ->).
  eapply params_unique; eauto.
Qed.

(** ** [strconv.Quote] of printable text is a quoted string *)

Lemma quoted_of s : printable s -> quoted (concat_map quote_byte s) s.
Proof.
  induction s as [|a s IH]; intros H; [constructor|]. cbn [concat_map].
  assert (IH' : quoted (concat_map quote_byte s) s) by (apply IH; intros b HB; apply H; right; exact HB).
  destruct (H a (or_introl eq_refl)) as [H1 H2].
  assert (HT : text_char a) by (right; split; lia).
  unfold quote_byte. 
  destruct (N.eqb (N_of_ascii a) 34) eqn:E34.
  { apply N.eqb_eq in E34. assert (a = dquote) by (rewrite <- (ascii_N_embedding a), E34; reflexivity). subst a.
    exact (quoted_pair dquote _ _ HT IH'). }
  destruct (N.eqb (N_of_ascii a) 92) eqn:E92.
  { apply N.eqb_eq in E92. assert (a = backslash) by (rewrite <- (ascii_N_embedding a), E92; reflexivity). subst a.
    exact (quoted_pair backslash _ _ HT IH'). }
  apply N.eqb_neq in E34, E92.
  repeat match goal with
  | |- context [N.eqb (N_of_ascii a) ?n] =>
      let E := fresh "E" in destruct (N.eqb (N_of_ascii a) n) eqn:E;
      [apply N.eqb_eq in E; exfalso; lia|]
  end.
  destruct (N.ltb (N_of_ascii a) 32) eqn:EL; [apply N.ltb_lt in EL; lia|]. cbn [orb].
  cbn [append]. apply quoted_char; auto; intros ->; [apply E34|apply E92]; reflexivity.
Qed.

Lemma printable_app a b : printable a -> printable b -> printable (a ++ b).
Proof. intros HA HB x HX. rewrite bytes_app in HX. apply in_app_or in HX. destruct HX; auto. Qed.
Lemma printable_b s : forallb (fun a => (N.leb 32 (N_of_ascii a) && N.leb (N_of_ascii a) 126)%bool) (list_ascii_of_string s) = true -> printable s.
Proof.
  intros H a HA. rewrite forallb_forall in H. specialize (H a HA). apply andb_true_iff in H. destruct H as [H1 H2].
  apply N.leb_le in H1. apply N.leb_le in H2. auto.
Qed.
Lemma printable_quote s : ascii_text s -> printable (go_quote s).
Proof.
  intros HS.   unfold go_quote. apply (printable_app (String dquote "")); [apply printable_b; reflexivity|].
  apply printable_app; [|apply printable_b; reflexivity].
  induction s as [|a s IH]; [apply printable_b; reflexivity|]. cbn [concat_map]. apply printable_app.
  2: { apply IH. intros b HB. apply HS. right. exact HB. }
  specialize (HS a (or_introl eq_refl)). apply printable_b. revert HS.
  bytes a; intros HS; first [reflexivity|exfalso; vm_compute in HS; discriminate HS].
Qed.

Lemma token_b s : s <> "" -> forallb (fun a => existsb (Ascii.eqb a) (list_ascii_of_string
    "!#$%&'*+-.^_`|~0123456789abcdefghijklmnopqrstuvwxyzABCDEFGHIJKLMNOPQRSTUVWXYZ")) (list_ascii_of_string s) = true -> token s.
Proof.
  intros HN H. split; [exact HN|]. intros a HA. rewrite forallb_forall in H. specialize (H a HA).
  apply existsb_exists in H. destruct H as (b & HB & E). apply Ascii.eqb_eq in E. subst. exact HB.
Qed.
Lemma name_printable t : printable (oerr_name t).
Proof. destruct t; apply printable_b; reflexivity. Qed.

Definition param_text (p : string * string) : string := (fst p ++ "=" ++ go_quote (snd p))%string.
Lemma params_join l : l <> [] -> Forall (fun p => token (fst p) /\ printable (snd p)) l -> params (join ", " (map param_text l)) l.
Proof.
  intros HN H. induction H as [|[k v] l [HK HV] HL IH]; [congruence|]. destruct l as [|q l].
  - apply params_one; [exact HK|apply quoted_of; exact HV].
  - change (join ", " (map param_text ((k, v) :: q :: l))) with
      (param_text (k, v) ++ ", " ++ join ", " (map param_text (q :: l)))%string.
    unfold param_text at 1. cbn [fst snd]. rewrite !app_assoc_s. 
    apply (params_more k _ v "" " " _ _ HK (quoted_of v HV)).
    + intros a [].
    + intros a [<-|[]]. left. reflexivity.
    + apply IH. discriminate.
Qed.

Definition challenge_params (e : oauth_error) (realm : string) : kvs :=
  (unless_empty "realm" realm ++ ("error", oerr_name (oe_type e)) ::
   unless_empty "error_description" (oe_desc e) ++ unless_empty "error_uri" (oe_uri e))%list.

Lemma header_join e realm : oerr_header e realm = ("Bearer" ++ " " ++ "" ++ join ", " (map param_text (challenge_params e realm)))%string.
Proof.
  unfold oerr_header, challenge_params, unless_empty.
  assert (HS : forall (A : Type) s (x y : A), (if s =s? "" then x else y) = (if string_dec s "" then x else y)).
  { intros A s x y. destruct (string_dec s "") as [->|H]; [reflexivity|]. apply seqb_neq in H. rewrite H. reflexivity. }
  rewrite !HS. destruct (string_dec realm ""), (string_dec (oe_desc e) ""), (string_dec (oe_uri e) ""); reflexivity.
Qed.
Lemma header_reads e realm : printable realm -> printable (oe_desc e) -> printable (oe_uri e) ->
  reads_challenge (oerr_header e realm) "Bearer" (challenge_params e realm).
Proof.
  intros HR HD HU. rewrite header_join. exists "", (join ", " (map param_text (challenge_params e realm))).
  split; [reflexivity|]. split; [apply token_b; [discriminate|reflexivity]|]. split; [intros a []|].
  apply params_join.
  - unfold challenge_params. destruct (unless_empty "realm" realm); discriminate.
  - assert (HT : forall k v, printable v -> token k -> Forall (fun p => token (fst p) /\ printable (snd p)) (unless_empty k v)).
    { intros k v HV HK. unfold unless_empty. destruct (string_dec v ""); [constructor|constructor; [split; assumption|constructor]]. }
    unfold challenge_params. apply Forall_app. split; [apply HT; [exact HR|apply token_b; [discriminate|reflexivity]]|].
    constructor; [split; [apply token_b; [discriminate|reflexivity]|apply name_printable]|].
    apply Forall_app. split; apply HT; auto; apply token_b; try discriminate; reflexivity.
Qed.
