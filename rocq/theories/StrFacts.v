(** * Facts about the string primitives of GoStr.v. *)
From Coq Require Import Lia Sorted Permutation.
From Verif Require Import GoStr Codec Utils.

Lemma seqb_eq a b : (a =s? b) = true <-> a = b.
Proof. apply String.eqb_eq. Qed.
Lemma seqb_neq a b : (a =s? b) = false <-> a <> b.
Proof. apply String.eqb_neq. Qed.
Lemma seqb_refl a : (a =s? a) = true.
Proof. apply String.eqb_refl. Qed.
Lemma seqb_sym a b : (a =s? b) = (b =s? a).
Proof. apply String.eqb_sym. Qed.

(** Turns every string test in the context or goal into an equation. *)
Ltac sdestruct :=
  repeat match goal with
  | H : (?a =s? ?b) = true |- _ => apply seqb_eq in H
  | H : (?a =s? ?b) = false |- _ => apply seqb_neq in H
  | H : negb _ = true |- _ => apply negb_true_iff in H
  | H : negb _ = false |- _ => apply negb_false_iff in H
  | H : andb _ _ = true |- _ => apply andb_true_iff in H; destruct H
  | H : orb _ _ = false |- _ => apply orb_false_iff in H; destruct H
  end.

Lemma app_assoc_s (a b c : string) : (a ++ b) ++ c = a ++ (b ++ c).
Proof. induction a; simpl; f_equal; auto. Qed.
Lemma app_nil_r_s (a : string) : a ++ "" = a.
Proof. induction a; simpl; f_equal; auto. Qed.
Lemma app_inj_l (a b c : string) : a ++ b = a ++ c -> b = c.
Proof. induction a; simpl; intros H; auto. injection H; auto. Qed.

(** ** Bytes of a string *)

Lemma has_byte_In c s : has_byte c s = true <-> In c (list_ascii_of_string s).
Proof.
  induction s as [|a s IH]; simpl; [split; [discriminate|tauto]|].
  rewrite orb_true_iff, IH, Ascii.eqb_eq. tauto.
Qed.
Lemma has_byte_false c s : has_byte c s = false <-> ~ In c (list_ascii_of_string s).
Proof. rewrite <- has_byte_In. destruct (has_byte c s); intuition congruence. Qed.
Lemma has_byte_app c s t : has_byte c (s ++ t) = (has_byte c s || has_byte c t)%bool.
Proof. induction s; simpl; auto. rewrite IHs, orb_assoc. reflexivity. Qed.

Lemma bytes_app s t :
  list_ascii_of_string (s ++ t) = (list_ascii_of_string s ++ list_ascii_of_string t)%list.
Proof. induction s; simpl; f_equal; auto. Qed.

Lemma join_concat sep l : join sep l = String.concat sep l.
Proof.
  induction l as [|w l IH]; simpl; auto.
Qed.

Lemma join_cons sep w x l : join sep (w :: x :: l) = w ++ sep ++ join sep (x :: l).
Proof. reflexivity. Qed.

(** ** split and join *)

Lemma split_on_nonempty c s : split_on c s <> [].
Proof.
  induction s as [|a s IH]; simpl; [discriminate|].
  destruct (Ascii.eqb a c); [discriminate|]. destruct (split_on c s); discriminate.
Qed.

Lemma split_on_cons c a s :
  split_on c (String a s) =
  if Ascii.eqb a c then "" :: split_on c s
  else String a (hd "" (split_on c s)) :: tl (split_on c s).
Proof.
  simpl. destruct (Ascii.eqb a c); auto.
  destruct (split_on c s); auto.
Qed.

Lemma split_on_hd_tl c s : split_on c s = hd "" (split_on c s) :: tl (split_on c s).
Proof. destruct (split_on c s) eqn:E; auto. exfalso; eapply split_on_nonempty; eauto. Qed.

Lemma join_split c s : join (String c "") (split_on c s) = s.
Proof.
  induction s as [|a s IH]; auto. rewrite split_on_cons.
  destruct (Ascii.eqb_spec a c) as [->|Hn].
  - destruct (split_on c s) as [|w ws] eqn:E; [exfalso; eapply split_on_nonempty; eauto|].
    rewrite join_cons. rewrite IH. reflexivity.
  - rewrite (split_on_hd_tl c s) in IH. destruct (tl (split_on c s)) as [|w ws] eqn:E.
    + simpl in *. congruence.
    + rewrite join_cons in *. simpl. f_equal. exact IH.
Qed.

Lemma split_on_no_sep c s : Forall (fun w => has_byte c w = false) (split_on c s).
Proof.
  induction s as [|a s IH]; [repeat constructor|]. rewrite split_on_cons.
  destruct (Ascii.eqb_spec a c) as [->|Hn].
  - constructor; auto.
  - rewrite (split_on_hd_tl c s) in IH. inversion IH; subst. constructor; auto.
    simpl. apply orb_false_iff. split; auto. apply Ascii.eqb_neq; auto.
Qed.

Lemma split_on_atom c w : has_byte c w = false -> split_on c w = [w].
Proof.
  induction w as [|a w IH]; auto. intros H. simpl in H. apply orb_false_iff in H. destruct H as [H1 H2].
  rewrite split_on_cons, H1, IH by auto. reflexivity.
Qed.

Lemma split_on_app c w s : has_byte c w = false ->
  split_on c (w ++ String c s) = w :: split_on c s.
Proof.
  induction w as [|a w IH]; intros H.
  - change ("" ++ String c s) with (String c s). rewrite split_on_cons, Ascii.eqb_refl. reflexivity.
  - simpl in H. apply orb_false_iff in H. destruct H as [H1 H2].
    change (String a w ++ String c s) with (String a (w ++ String c s)).
    rewrite split_on_cons, H1, IH by auto. reflexivity.
Qed.

Lemma split_join c l : l <> [] -> Forall (fun w => has_byte c w = false) l ->
  split_on c (join (String c "") l) = l.
Proof.
  induction l as [|w l IH]; [congruence|]. intros _ H. inversion H; subst.
  destruct l as [|x l].
  - simpl. apply split_on_atom; auto.
  - rewrite join_cons. change (String c "" ++ join (String c "") (x :: l)) with (String c (join (String c "") (x :: l))).
    rewrite split_on_app by auto.
    rewrite IH; auto. discriminate.
Qed.

(** ** Byte order on strings *)

Lemma ascii_compare_refl a : Ascii.compare a a = Eq.
Proof. unfold Ascii.compare. apply N.compare_refl. Qed.
Lemma ascii_compare_eq a b : Ascii.compare a b = Eq -> a = b.
Proof.
  unfold Ascii.compare. intros H. apply N.compare_eq in H.
  rewrite <- (ascii_N_embedding a), <- (ascii_N_embedding b), H. reflexivity.
Qed.

Lemma sle_refl a : sle a a = true.
Proof.
  unfold sle. induction a; simpl; auto. rewrite ascii_compare_refl. exact IHa.
Qed.

Lemma sle_total a b : sle a b = true \/ sle b a = true.
Proof.
  unfold sle. rewrite (String.compare_antisym b a).
  destruct (String.compare a b); simpl; auto.
Qed.

Lemma sle_antisym a b : sle a b = true -> sle b a = true -> a = b.
Proof.
  unfold sle. rewrite (String.compare_antisym b a).
  destruct (String.compare a b) eqn:E; simpl; try discriminate.
  intros _ _. apply String.compare_eq_iff. exact E.
Qed.

Lemma sle_trans a : forall b c, sle a b = true -> sle b c = true -> sle a c = true.
Proof.
  unfold sle. induction a as [|x a IH]; intros b c; [destruct c; auto|].
  destruct b as [|y b]; simpl; [discriminate|].
  destruct c as [|z c]; simpl; [destruct (Ascii.compare x y); intros; discriminate|].
  unfold Ascii.compare.
  destruct (N.compare_spec (N_of_ascii x) (N_of_ascii y)) as [E1|L1|L1]; try discriminate;
  destruct (N.compare_spec (N_of_ascii y) (N_of_ascii z)) as [E2|L2|L2]; try discriminate;
  destruct (N.compare_spec (N_of_ascii x) (N_of_ascii z)) as [E3|L3|L3]; try discriminate; auto;
    try lia.
  apply IH.
Qed.

Definition sle_p (a b : string) : Prop := sle a b = true.

(** ** Sorting *)

Lemma sinsert_perm x l : Permutation (x :: l) (sinsert x l).
Proof.
  induction l as [|y l IH]; simpl; auto. destruct (sle x y); auto.
  rewrite perm_swap. apply perm_skip, IH.
Qed.

Lemma ssort_perm l : Permutation l (ssort l).
Proof.
  induction l as [|x l IH]; simpl; auto. rewrite <- sinsert_perm. apply perm_skip, IH.
Qed.

Lemma sinsert_sorted x l : StronglySorted sle_p l -> StronglySorted sle_p (sinsert x l).
Proof.
  induction 1 as [|y l Hs IH Hf]; simpl.
  - repeat constructor.
  - destruct (sle x y) eqn:E.
    + constructor; [constructor; auto|]. constructor; auto.
      eapply Forall_impl; [|exact Hf]. intros z Hz. unfold sle_p in *. eapply sle_trans; eauto.
    + constructor; auto.
      apply (Permutation_Forall (sinsert_perm x l)). constructor; auto.
      destruct (sle_total x y); [congruence|]; auto.
Qed.

Lemma ssort_sorted l : StronglySorted sle_p (ssort l).
Proof. induction l; simpl; [constructor|]. apply sinsert_sorted; auto. Qed.

Lemma sorted_unique l1 : forall l2,
  StronglySorted sle_p l1 -> StronglySorted sle_p l2 -> Permutation l1 l2 -> l1 = l2.
Proof.
  induction l1 as [|x l1 IH]; intros l2 H1 H2 P.
  - apply Permutation_nil in P. auto.
  - destruct l2 as [|y l2]; [apply Permutation_sym, Permutation_nil in P; discriminate|].
    inversion H1; subst. inversion H2; subst.
    assert (x = y) as ->.
    { assert (Ix : In x (y :: l2)) by (eapply Permutation_in; [exact P|left; auto]).
      assert (Iy : In y (x :: l1)) by (eapply Permutation_in; [apply Permutation_sym, P|left; auto]).
      destruct Ix as [->|Ix]; auto. destruct Iy as [->|Iy]; auto.
      apply sle_antisym.
      - rewrite Forall_forall in H4. apply H4; auto.
      - rewrite Forall_forall in H6. apply H6; auto. }
    f_equal. apply IH; auto. eapply Permutation_cons_inv; eauto.
Qed.

Lemma ssort_canonical l1 l2 : ssort l1 = ssort l2 <-> Permutation l1 l2.
Proof.
  split; intros H.
  - rewrite (ssort_perm l1), (ssort_perm l2), H. reflexivity.
  - apply sorted_unique; try apply ssort_sorted.
    rewrite <- ssort_perm, <- ssort_perm. exact H.
Qed.

(** ** Words *)

Lemma mem_str_In x l : mem_str x l = true <-> In x l.
Proof.
  unfold mem_str. rewrite existsb_exists. split.
  - intros (y & Hy & E). apply seqb_eq in E. subst; auto.
  - intros H. exists x. split; auto. apply seqb_refl.
Qed.

Lemma mem_str_false x l : mem_str x l = false <-> ~ In x l.
Proof. rewrite <- mem_str_In. destruct (mem_str x l); intuition congruence. Qed.

Lemma no_space_sort l : Forall (fun w => has_byte space w = false) l ->
  Forall (fun w => has_byte space w = false) (ssort l).
Proof. intros H. eapply Permutation_Forall; [apply ssort_perm|exact H]. Qed.

Lemma ssort_nonempty l : l <> [] -> ssort l <> [].
Proof.
  intros H E. apply H. apply Permutation_nil. rewrite <- E. apply Permutation_sym, ssort_perm.
Qed.

Lemma split_sort s : split_on space (join " " (ssort (split_on space s))) = ssort (split_on space s).
Proof.
  apply (split_join space).
  - apply ssort_nonempty, split_on_nonempty.
  - apply no_space_sort, split_on_no_sep.
Qed.
