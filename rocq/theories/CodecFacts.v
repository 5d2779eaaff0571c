(** * Lemmas about the codecs. *)
From Coq Require Import Lia Permutation.
From Verif Require Import GoStr Codec StrFacts Core AuthzResponse AuthzSpec CodecSpec.

Lemma no_byte_has c s : no_byte c s <-> has_byte c s = false.
Proof. unfold no_byte. symmetry. apply has_byte_false. Qed.

Ltac bytes a := destruct a as [[] [] [] [] [] [] [] []].

(** ** url.QueryEscape *)
Lemma qescape_cons a s : qescape (String a s) = qescape_byte a ++ qescape s.
Proof. reflexivity. Qed.

Lemma qunescape_byte a s t : qunescape s = Some t -> qunescape (qescape_byte a ++ s) = Some (String a t).
Proof. intros H. bytes a; cbn; rewrite H; reflexivity. Qed.

Lemma qescape_round s : qunescape (qescape s) = Some s.
Proof. induction s as [|a s IH]; [reflexivity|]. rewrite qescape_cons. apply qunescape_byte. exact IH. Qed.

Definition clean (s : string) : Prop :=
  has_byte "&" s = false /\ has_byte "=" s = false /\ has_byte ";" s = false /\ has_byte "#" s = false /\
  has_byte "?" s = false /\ has_byte ":" s = false.
Lemma qescape_byte_clean a : clean (qescape_byte a).
Proof. unfold clean. bytes a; vm_compute; repeat split; reflexivity. Qed.
Lemma clean_app s t : clean s -> clean t -> clean (s ++ t).
Proof.
  unfold clean. intros (A & B & C & D & F & G) (A' & B' & C' & D' & F' & G'). rewrite !has_byte_app.
  rewrite A, B, C, D, F, G, A', B', C', D', F', G'. repeat split; reflexivity.
Qed.
Lemma qescape_clean s : clean (qescape s).
Proof.
  induction s as [|a s IH]; [repeat split|]. rewrite qescape_cons. apply clean_app; auto using qescape_byte_clean.
Qed.

(** ** cut, split *)
Lemma cut_app c a b : has_byte c a = false -> cut c (a ++ String c b) = (a, b, true).
Proof.
  induction a as [|x a IH]; simpl; intros H.
  - rewrite Ascii.eqb_refl. reflexivity.
  - apply orb_false_iff in H. destruct H as [H1 H2]. rewrite H1, IH by auto. reflexivity.
Qed.
Lemma cut_none c a : has_byte c a = false -> cut c a = (a, "", false).
Proof.
  induction a as [|x a IH]; simpl; intros H; [reflexivity|].
  apply orb_false_iff in H. destruct H as [H1 H2]. rewrite H1, IH by auto. reflexivity.
Qed.
Lemma cut_spec c s : forall a b f, cut c s = (a, b, f) ->
  has_byte c a = false /\ (if f then s = a ++ String c b else s = a /\ b = "").
Proof.
  induction s as [|x s IH]; simpl; intros a b f H.
  - injection H as <- <- <-. auto.
  - destruct (Ascii.eqb x c) eqn:EX.
    + injection H as <- <- <-. apply Ascii.eqb_eq in EX. subst. auto.
    + destruct (cut c s) as [[a' b'] f']. injection H as <- <- <-.
      destruct (IH _ _ _ eq_refl) as [H1 H2]. split; [simpl; rewrite EX; auto|].
      destruct f'; [rewrite H2; reflexivity|]. destruct H2 as [-> ->]. auto.
Qed.

Lemma split_app c s t : split_on c (s ++ String c t) = (split_on c s ++ split_on c t)%list.
Proof.
  induction s as [|a s IH]; simpl.
  - rewrite Ascii.eqb_refl. reflexivity.
  - destruct (Ascii.eqb a c) eqn:EA; [rewrite IH; reflexivity|].
    rewrite IH. destruct (split_on c s) as [|w ws] eqn:ES; [destruct (split_on_nonempty c s ES)|]. reflexivity.
Qed.

(** ** url.Values.Encode, url.ParseQuery *)
Lemma kv_insert_perm x l : Permutation (kv_insert x l) (x :: l).
Proof.
  induction l as [|y l IH]; simpl; [auto|]. destruct (sle (fst x) (fst y)); [auto|].
  rewrite IH. apply perm_swap.
Qed.
Lemma kv_sort_perm l : Permutation (kv_sort l) l.
Proof. induction l as [|x l IH]; simpl; [auto|]. rewrite kv_insert_perm. auto. Qed.

Lemma enc_pair_nonempty p : enc_pair p =s? "" = false.
Proof. apply seqb_neq. unfold enc_pair. destruct (qescape (fst p)); discriminate. Qed.
Lemma enc_pair_amp p : has_byte "&" (enc_pair p) = false.
Proof.
  unfold enc_pair. rewrite !has_byte_app. destruct (qescape_clean (fst p)) as (-> & _).
  destruct (qescape_clean (snd p)) as (-> & _). reflexivity.
Qed.
Lemma parse_enc l : parse_pairs (map enc_pair l) = Some l.
Proof.
  induction l as [|[k v] l IH]; [reflexivity|]. cbn [map parse_pairs]. rewrite enc_pair_nonempty, IH.
  unfold enc_pair; cbn [fst snd].
  destruct (qescape_clean k) as (_ & K2 & K3 & _). destruct (qescape_clean v) as (_ & _ & V3 & _).
  rewrite !has_byte_app, K3, V3. cbn [has_byte Ascii.eqb orb Bool.eqb].
  change ("=" ++ qescape v)%string with (String "=" (qescape v)).
  rewrite cut_app by exact K2. rewrite !qescape_round. reflexivity.
Qed.
Lemma parse_pairs_app a b : parse_pairs (a ++ b) =
  match parse_pairs a, parse_pairs b with Some x, Some y => Some (x ++ y)%list | _, _ => None end.
Proof.
  induction a as [|w a IH]; cbn [app parse_pairs].
  - destruct (parse_pairs b); reflexivity.
  - destruct (w =s? ""); [exact IH|]. destruct (has_byte ";" w); [reflexivity|].
    destruct (cut "=" w) as [[k v] f]. destruct (qunescape k), (qunescape v); try reflexivity.
    rewrite IH. destruct (parse_pairs a), (parse_pairs b); reflexivity.
Qed.

Lemma values_split m : parse_pairs (split_on "&" (values_encode m)) = Some (kv_sort m).
Proof.
  unfold values_encode. destruct (kv_sort m) as [|p l] eqn:E; [reflexivity|].
  rewrite (split_join "&" (map enc_pair (p :: l))); [apply parse_enc|discriminate|].
  apply Forall_forall. intros w H. apply in_map_iff in H. destruct H as (q & <- & _). apply enc_pair_amp.
Qed.
Lemma values_round m : parse_query (values_encode m) = Some (kv_sort m).
Proof. exact (values_split m). Qed.
Lemma query_append q m : parse_query (q ++ "&" ++ values_encode m) =
  option_map (fun own => own ++ kv_sort m)%list (parse_query q).
Proof.
  unfold parse_query. change ("&" ++ values_encode m)%string with (String "&" (values_encode m)).
  rewrite split_app, parse_pairs_app, values_split. destruct (parse_pairs (split_on "&" q)); reflexivity.
Qed.

Lemma join_no_byte c sep l : has_byte c sep = false -> Forall (fun w => has_byte c w = false) l ->
  has_byte c (join sep l) = false.
Proof.
  intros HS. induction l as [|w l IH]; intros H; [reflexivity|]. inversion H; subst.
  destruct l as [|x l]; [simpl; auto|]. rewrite join_cons, !has_byte_app, H2, HS, IH by auto. reflexivity.
Qed.
Lemma values_no_byte c m : c = "#"%char \/ c = "?"%char \/ c = ";"%char -> has_byte c (values_encode m) = false.
Proof.
  intros HC. unfold values_encode. apply join_no_byte; [destruct HC as [->|[->| ->]]; reflexivity|].
  apply Forall_forall. intros w H. apply in_map_iff in H. destruct H as (p & <- & _).
  unfold enc_pair. rewrite !has_byte_app.
  destruct (qescape_clean (fst p)) as (_ & _ & A & B & C & _), (qescape_clean (snd p)) as (_ & _ & A' & B' & C' & _).
  destruct HC as [->|[->| ->]]; rewrite ?A, ?B, ?C, ?A', ?B', ?C'; reflexivity.
Qed.

(** ** Locations *)
Lemma part_unique c p x p' x' : has_byte c p = false -> has_byte c p' = false ->
  p ++ String c x = p' ++ String c x' -> p = p' /\ x = x'.
Proof.
  intros H H' E. pose proof (cut_app c p x H) as A. rewrite E, (cut_app c p' x' H') in A.
  injection A as -> ->. auto.
Qed.
Lemma fragment_part_unique u f f' : fragment_part u f -> fragment_part u f' -> f = f'.
Proof.
  intros (p & -> & H) (p' & E & H'). apply no_byte_has in H, H'.
  exact (proj2 (part_unique "#" p f p' f' H H' E)).
Qed.
Lemma query_part_unique u q q' : query_part u q -> query_part u q' -> q = q'.
Proof.
  intros (p & r & -> & H1 & H2 & H3 & H4) (p' & r' & E & H1' & H2' & H3' & H4').
  apply no_byte_has in H1, H2, H3, H1', H2', H3'.
  destruct (part_unique "?" p (q ++ r) p' (q' ++ r') H1 H1' E) as [_ EQ].
  destruct H4 as [->|[f ->]], H4' as [->|[f' ->]]; rewrite ?app_nil_r_s in EQ; auto.
  - rewrite EQ in H3. rewrite has_byte_app in H3. apply orb_false_iff in H3. destruct H3 as [_ H3]. discriminate.
  - rewrite <- EQ in H3'. rewrite has_byte_app in H3'. apply orb_false_iff in H3'. destruct H3' as [_ H3']. discriminate.
  - exact (proj1 (part_unique "#" q f q' f' H3 H3' EQ)).
Qed.

Lemma rawquery_none u : has_byte "#" u = false -> has_byte "?" u = false -> url_rawquery u = "".
Proof. intros H1 H2. unfold url_rawquery. rewrite cut_none by auto. rewrite cut_none by auto. reflexivity. Qed.
Lemma rawquery_part u q : query_part u q -> url_rawquery u = q.
Proof.
  intros (p & r & -> & H1 & H2 & H3 & H4). apply no_byte_has in H1, H2, H3. unfold url_rawquery.
  assert (HB : has_byte "#" (p ++ "?" ++ q) = false) by (rewrite !has_byte_app, H2, H3; reflexivity).
  destruct H4 as [->|[f ->]].
  - rewrite app_nil_r_s, cut_none by exact HB. change ("?" ++ q)%string with (String "?" q).
    rewrite cut_app by auto. reflexivity.
  - replace (p ++ "?" ++ q ++ "#" ++ f)%string with ((p ++ "?" ++ q) ++ String "#" f)%string
      by (rewrite !app_assoc_s; reflexivity).
    rewrite cut_app by exact HB. change ("?" ++ q)%string with (String "?" q). rewrite cut_app by auto. reflexivity.
Qed.
Lemma fragment_none u : has_byte "#" u = false -> url_fragment u = "".
Proof. intros H. unfold url_fragment. rewrite cut_none by auto. reflexivity. Qed.
Lemma fragment_some u f : fragment_part u f -> url_fragment u = f.
Proof.
  intros (p & -> & H). apply no_byte_has in H. unfold url_fragment.
  change ("#" ++ f)%string with (String "#" f). rewrite cut_app by auto. reflexivity.
Qed.

Lemma query_part_tail u q x : query_part u q -> has_byte "#" u = false -> has_byte "#" x = false ->
  query_part (u ++ x) (q ++ x).
Proof.
  intros (p & r & -> & H1 & H2 & H3 & H4) HU HX. apply no_byte_has in H3.
  assert (r = "") as ->.
  { destruct H4 as [->|[f ->]]; auto. rewrite !has_byte_app in HU.
    change (has_byte "#" "#") with true in HU. cbn [orb] in HU. rewrite !orb_true_r in HU. discriminate. }
  exists p, "". rewrite !app_nil_r_s, !app_assoc_s. repeat split; auto.
  apply no_byte_has. rewrite has_byte_app, H3, HX. reflexivity.
Qed.

(** ** html.EscapeString and the form document *)
Lemma srev_app_app v : forall acc, srev_app v acc = (srev_app v "" ++ acc)%string.
Proof.
  induction v as [|a v IH]; intros acc; [reflexivity|]. cbn [srev_app]. rewrite IH, (IH (String a "")).
  rewrite app_assoc_s. reflexivity.
Qed.
Lemma srev_srev_app v : forall acc, srev (srev_app v acc) = (srev acc ++ v)%string.
Proof.
  induction v as [|a v IH]; intros acc; cbn [srev_app]; [rewrite app_nil_r_s; reflexivity|].
  rewrite IH. unfold srev at 1. cbn [srev_app]. rewrite srev_app_app, app_assoc_s. reflexivity.
Qed.

Lemma read_value n at_ k v r : has_byte dquote v = false -> forall acc,
  html_read (SValue n at_ k acc) (v ++ String dquote r) =
  html_read (SAttrs n ((k, srev (srev_app v acc)) :: at_)) r.
Proof.
  induction v as [|a v IH]; intros H acc.
  - reflexivity.
  - cbn [has_byte] in H. apply orb_false_iff in H. destruct H as [H1 H2].
    change ((String a v ++ String dquote r)%string) with (String a (v ++ String dquote r)).
    cbn [html_read]. rewrite H1. rewrite IH by auto. reflexivity.
Qed.
Lemma read_value0 n at_ k v r : has_byte dquote v = false ->
  html_read (SValue n at_ k "") (v ++ String dquote r) = html_read (SAttrs n ((k, v) :: at_)) r.
Proof. intros H. rewrite read_value by auto. rewrite srev_srev_app. reflexivity. Qed.

Lemma read_input k v r : has_byte dquote k = false -> has_byte dquote v = false ->
  html_read (SText "") ("<input type=" ++ dq "hidden" ++ " name=" ++ dq k ++ " value=" ++ dq v ++ " />" ++ r) =
  emit (HOpen "input" [("type", "hidden"); ("name", k); ("value", v)]) (html_read (SText "") r).
Proof.
  intros HK HV.
  transitivity (html_read (SValue "input" [("type", "hidden")] "name" "")
     (k ++ String dquote (" value=" ++ String dquote (v ++ String dquote (" />" ++ r))))).
  { unfold dq. cbn [append]. rewrite !app_assoc_s. cbn [append]. cbn. 
    destruct (html_read _ _); reflexivity. }
  rewrite read_value0 by auto.
  transitivity (html_read (SValue "input" [("name", k); ("type", "hidden")] "value" "") (v ++ String dquote (" />" ++ r)));
    [reflexivity|].
  rewrite read_value0 by auto. reflexivity.
Qed.

Lemma hescape_cons a s : hescape (String a s) = hescape_byte a ++ hescape s.
Proof. reflexivity. Qed.
Lemma hescape_quiet s : has_byte dquote (hescape s) = false.
Proof.
  induction s as [|a s IH]; [reflexivity|]. rewrite hescape_cons, has_byte_app, IH.
  assert (H : has_byte dquote (hescape_byte a) = false) by (bytes a; reflexivity). rewrite H. reflexivity.
Qed.
Lemma substring_all s : substring 0 (String.length s) s = s.
Proof. induction s as [|a s IH]; [reflexivity|]. cbn. rewrite IH. reflexivity. Qed.

Lemma hescape_decodes s : html_decodes (hescape s) s.
Proof.
  induction s as [|a s IH]; [constructor|]. rewrite hescape_cons. unfold hescape_byte.
  assert (P : forall s, String.prefix "" s = true) by (intros []; reflexivity).
  destruct (Ascii.eqb a "&") eqn:E1; [apply Ascii.eqb_eq in E1; subst|
   destruct (Ascii.eqb a "'") eqn:E2; [apply Ascii.eqb_eq in E2; subst|
   destruct (Ascii.eqb a "<") eqn:E3; [apply Ascii.eqb_eq in E3; subst|
   destruct (Ascii.eqb a ">") eqn:E4; [apply Ascii.eqb_eq in E4; subst|
   destruct (Ascii.eqb a dquote) eqn:E5; [apply Ascii.eqb_eq in E5; subst|]]]]].
  6: { apply hd_byte; [|exact IH]. cbn [ref_at char_refs append].
       assert (X : forall t, String.prefix (String "&" t) (String a (hescape s)) = false).
       { intros t. unfold String.prefix. destruct (ascii_dec "&" a) as [H|H]; [|reflexivity].
         subst. discriminate. }
       rewrite !X. reflexivity. }
  all: eapply hd_ref; [|exact IH].
  all: cbn [ref_at char_refs append]; cbn; rewrite ?P; cbn; rewrite ?substring_all, ?Nat.sub_0_r, ?substring_all; reflexivity.
Qed.

Lemma read_inputs l r : Forall (fun p => has_byte dquote (fst p) = false) l ->
  html_read (SText "") (join "" (map form_input l) ++ r) =
  option_map (fun ts => map (fun p => HOpen "input" [("type", "hidden"); ("name", fst p); ("value", snd p)])
                            (map (fun p => (fst p, hescape (snd p))) l) ++ ts)%list
    (html_read (SText "") r).
Proof.
  induction l as [|p l IH]; intros H.
  - cbn [map join append]. destruct (html_read (SText "") r); reflexivity.
  - inversion H; subst.
    assert (E : (join "" (map form_input (p :: l)) ++ r)%string = (form_input p ++ (join "" (map form_input l) ++ r))%string).
    { destruct l as [|q l]; [reflexivity|]. cbn [map]. rewrite join_cons. cbn [append]. rewrite !app_assoc_s. reflexivity. }
    rewrite E. unfold form_input at 1. rewrite !app_assoc_s.
    rewrite read_input by auto using hescape_quiet. rewrite IH by auto.
    destruct (html_read (SText "") r); reflexivity.
Qed.

Lemma document_tokens uri l :
  has_byte dquote uri = false -> Forall (fun p => has_byte dquote (fst p) = false) l ->
  html_tokens (form_document uri l) = Some
      ([HOpen "html" []; HOpen "head" []; HOpen "title" []; HText "Submit This Form"; HClose "title"; HClose "head";
        HOpen "body" [("onload", "javascript:document.forms[0].submit()")];
        HOpen "form" [("method", "post"); ("action", uri)]]
       ++ map (fun r => HOpen "input" [("type", "hidden"); ("name", fst r); ("value", snd r)])
            (map (fun p => (fst p, hescape (snd p))) l)
       ++ [HClose "form"; HClose "body"; HClose "html"])%list.
Proof.
  intros HU HL.
  pose (T := (">" ++ join "" (map form_input l) ++ form_tail)%string).
  assert (HT : html_read (SAttrs "form" [("action", uri); ("method", "post")]) T =
    emit (HOpen "form" [("method", "post"); ("action", uri)])
     (Some (map (fun r => HOpen "input" [("type", "hidden"); ("name", fst r); ("value", snd r)])
              (map (fun p => (fst p, hescape (snd p))) l) ++ [HClose "form"; HClose "body"; HClose "html"])%list)).
  { unfold T. cbn [append html_read Ascii.eqb Bool.eqb]. rewrite read_inputs by auto. reflexivity. }
  assert (E : form_document uri l =
     (form_head ++ "<form method=" ++ dq "post" ++ " action=" ++ String dquote (uri ++ String dquote T))%string).
  { unfold form_document, T, dq. rewrite ?app_assoc_s. cbn [append]. rewrite ?app_assoc_s. reflexivity. }
  rewrite E. unfold html_tokens.
  pose proof (read_value0 "form" [("method", "post")] "action" uri T HU) as HV. rewrite HT in HV.
  remember (uri ++ String dquote T)%string as tl0 eqn:ET.
  clear E HT. clearbody T. clear ET.
  match type of HV with _ = emit ?a (Some ?b) => remember b as inputs eqn:EI end. clear EI.
  vm_compute in HV. vm_compute. rewrite HV. reflexivity.
Qed.

Lemma posts_form_document uri l params :
  Permutation l params -> has_byte dquote uri = false -> Forall (fun p => has_byte dquote (fst p) = false) params ->
  posts_form (form_document uri l) uri params.
Proof.
  intros HP HU HL. exists l, (map (fun p => (fst p, hescape (snd p))) l). split; [auto|]. split.
  - clear. induction l as [|p l IH]; constructor; auto. split; [reflexivity|apply hescape_decodes].
  - apply document_tokens; auto. apply Forall_forall. intros x H. rewrite Forall_forall in HL. apply HL.
    eapply Permutation_in; eauto.
Qed.
