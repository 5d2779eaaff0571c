(** * Proofs about [url.Parse] and [http.Redirect] *)
From Coq Require Import Lia.
From Verif Require Import GoStr Codec StrFacts Core AuthzResponse UrlParse CodecSpec CodecFacts HttpSpec RedirectSpec.

Lemma chars_all set f a : chars set a -> forallb f (list_ascii_of_string set) = true -> f a = true.
Proof. intros HA H. rewrite forallb_forall in H. apply H. exact HA. Qed.
Lemma chars_not set f a : chars set a -> forallb (fun a => negb (f a)) (list_ascii_of_string set) = true -> f a = false.
Proof. intros HA H. apply negb_true_iff. exact (chars_all set (fun a => negb (f a)) a HA H). Qed.

Lemma hex_cases h x : hex_digit h x -> chars "0123456789abcdefABCDEF" h /\ hex_val h = Some x.
Proof.
  intros [n H|n H|n H].
  - assert (E : (n = 0 \/ n = 1 \/ n = 2 \/ n = 3 \/ n = 4 \/ n = 5 \/ n = 6 \/ n = 7 \/ n = 8 \/ n = 9)%N) by lia.
    repeat (destruct E as [->|E]; [split; [vm_compute; tauto|reflexivity]|]). subst. split; [vm_compute; tauto|reflexivity].
  - assert (E : (n = 10 \/ n = 11 \/ n = 12 \/ n = 13 \/ n = 14 \/ n = 15)%N) by lia.
    repeat (destruct E as [->|E]; [split; [vm_compute; tauto|reflexivity]|]). subst. split; [vm_compute; tauto|reflexivity].
  - assert (E : (n = 10 \/ n = 11 \/ n = 12 \/ n = 13 \/ n = 14 \/ n = 15)%N) by lia.
    repeat (destruct E as [->|E]; [split; [vm_compute; tauto|reflexivity]|]). subst. split; [vm_compute; tauto|reflexivity].
Qed.

Definition escapes : string := "%0123456789abcdefABCDEF".
Lemma hex_escapes h x : hex_digit h x -> chars escapes h.
Proof. intros H. right. exact (proj1 (hex_cases _ _ H)). Qed.

Lemma all_app f a b : all_bytes f (a ++ b) = (all_bytes f a && all_bytes f b)%bool.
Proof. induction a as [|x a IH]; [reflexivity|]. cbn. rewrite IH. apply andb_assoc. Qed.
Lemma all_in f s : (forall b, In b (list_ascii_of_string s) -> f b = true) -> all_bytes f s = true.
Proof.
  induction s as [|a s IH]; intros H; [reflexivity|]. cbn. rewrite H by (left; reflexivity).
  apply IH. intros b HB. apply H. right. exact HB.
Qed.
Lemma all_chars f set s : (forall b, In b (list_ascii_of_string s) -> chars set b) ->
  forallb f (list_ascii_of_string set) = true -> all_bytes f s = true.
Proof. intros H HF. apply all_in. intros b HB. apply (chars_all set f); auto. Qed.
Lemma all_not c s : all_bytes (fun a => negb (Ascii.eqb a c)) s = true -> has_byte c s = false.
Proof.
  induction s as [|a s IH]; [reflexivity|]. cbn. intros H. apply andb_true_iff in H. destruct H as [H1 H2].
  apply negb_true_iff in H1. rewrite H1, IH by exact H2. reflexivity.
Qed.
Lemma text_all f set s : text set s ->
  forallb f (list_ascii_of_string set) = true -> forallb f (list_ascii_of_string escapes) = true -> all_bytes f s = true.
Proof.
  intros H HS HE. induction H as [|a s HA HT IH|h l x y s HH HL HT IH]; [reflexivity| |]; cbn.
  - rewrite (chars_all _ _ _ HA HS). exact IH.
  - rewrite (chars_all escapes f "%"%char (or_introl eq_refl) HE).
    rewrite (chars_all _ _ _ (hex_escapes _ _ HH) HE), (chars_all _ _ _ (hex_escapes _ _ HL) HE). exact IH.
Qed.
Lemma reg_all f s : reg_name s ->
  forallb f (list_ascii_of_string name_chars) = true -> forallb f (list_ascii_of_string escapes) = true -> all_bytes f s = true.
Proof.
  intros H HS HE. apply text_all with (set := name_chars); auto.
  clear HS HE. induction H; [apply text_nil|apply text_char; auto|eapply text_escape; eauto].
Qed.
Lemma ctl_all s : all_bytes (fun a => negb (ctl_byte a)) s = true -> has_ctl s = false.
Proof.
  induction s as [|a s IH]; [reflexivity|]. cbn. intros H. apply andb_true_iff in H. destruct H as [H1 H2].
  apply negb_true_iff in H1. rewrite H1. apply IH. exact H2.
Qed.

Lemma text_unescapes set s : text set s -> forallb (fun a => negb (Ascii.eqb a "%")) (list_ascii_of_string set) = true ->
  unescapes EncOther s = true.
Proof.
  intros H HS. induction H as [|a s HA HT IH|h l x y s HH HL HT IH]; [reflexivity| |]; cbn.
  - pose proof (chars_all _ _ _ HA HS) as E. apply negb_true_iff in E. rewrite E. exact IH.
  - unfold escape_ok; rewrite (proj2 (hex_cases _ _ HH)), (proj2 (hex_cases _ _ HL)). exact IH.
Qed.

(** ** Scheme *)

Lemma span_app f s t : all_bytes f s = true -> (forall a r, t = String a r -> f a = false) -> span f (s ++ t) = (s, t).
Proof.
  induction s as [|a s IH]; cbn; intros H HT.
  - destruct t as [|a t]; [reflexivity|]. cbn. rewrite (HT a t eq_refl). reflexivity.
  - apply andb_true_iff in H. destruct H as [H1 H2]. rewrite H1, IH by auto. reflexivity.
Qed.
Lemma get_scheme_some s r : scheme s -> get_scheme (s ++ ":" ++ r) = Some (s, r).
Proof.
  intros [a w HA HW]. unfold get_scheme. rewrite span_app.
  - rewrite (chars_all letters is_alpha _ HA eq_refl). reflexivity.
  - cbn [all_bytes]. apply andb_true_iff. split.
    + exact (chars_all letters scheme_byte _ HA eq_refl).
    + exact (all_chars scheme_byte _ w HW eq_refl).
  - intros b t E. cbn [append] in E. injection E as <- _. reflexivity.
Qed.
Lemma scheme_all f s : scheme s -> forallb f (list_ascii_of_string (letters ++ digits ++ "+-.")) = true -> all_bytes f s = true.
Proof.
  intros [a w HA HW] HF. cbn [all_bytes]. apply andb_true_iff. split.
  - refine (chars_all _ _ _ _ HF). unfold chars in *. rewrite bytes_app. apply in_or_app. left. exact HA.
  - exact (all_chars f _ w HW HF).
Qed.

(** ** Authority *)

Lemma cut_last_none c s : has_byte c s = false -> cut_last c s = None.
Proof.
  induction s as [|a s IH]; [reflexivity|]. cbn. intros H. apply orb_false_iff in H. destruct H as [H1 H2].
  rewrite IH, H1 by exact H2. reflexivity.
Qed.
Lemma cut_last_app c s t : has_byte c t = false -> cut_last c (s ++ String c t) = Some (s, t).
Proof.
  intros H. induction s as [|a s IH]; cbn.
  - rewrite cut_last_none by exact H. rewrite Ascii.eqb_refl. reflexivity.
  - rewrite IH. reflexivity.
Qed.

Lemma text_cut s : text (name_chars ++ ":") s -> forall n p b, cut ":" s = (n, p, b) ->
  unescapes EncOther n = true /\ unescapes EncOther p = true.
Proof.
  intros H. induction H as [|a s HA HT IH|h l x y s HH HL HT IH]; intros n p b E.
  - injection E as <- <- <-. auto.
  - pose proof (chars_not _ (fun a => Ascii.eqb a "%") _ HA eq_refl) as EP.
    cbn [cut] in E. destruct (Ascii.eqb a ":") eqn:EC.
    + injection E as <- <- <-. split; [reflexivity|]. eapply text_unescapes; [exact HT|reflexivity].
    + destruct (cut ":" s) as [[n' p'] b'] eqn:ES. injection E as <- <- <-. destruct (IH _ _ _ eq_refl) as [I1 I2].
      split; [|exact I2]. cbn. cbv beta in EP. rewrite EP. exact I1.
  - pose proof (chars_not _ (fun a => Ascii.eqb a ":") _ (hex_escapes _ _ HH) eq_refl) as E1.
    pose proof (chars_not _ (fun a => Ascii.eqb a ":") _ (hex_escapes _ _ HL) eq_refl) as E2. cbv beta in E1, E2.
    cbn [cut] in E. rewrite E1, E2 in E. change (Ascii.eqb "%" ":") with false in E. cbv iota in E.
    destruct (cut ":" s) as [[n' p'] b'] eqn:ES. injection E as <- <- <-. destruct (IH _ _ _ eq_refl) as [I1 I2].
    split; [|exact I2]. cbn. unfold escape_ok; rewrite (proj2 (hex_cases _ _ HH)), (proj2 (hex_cases _ _ HL)). exact I1.
Qed.

Lemma unescapes_plain e f s t : all_bytes f s = true ->
  (forall a, f a = true -> Ascii.eqb a "%" = false /\ plain_ok e a = true) ->
  unescapes e (s ++ t) = unescapes e t.
Proof.
  intros H HF. induction s as [|a s IH]; [reflexivity|]. cbn in *. apply andb_true_iff in H. destruct H as [H1 H2].
  destruct (HF a H1) as [F1 F2]. rewrite F1, F2, IH by exact H2. reflexivity.
Qed.
Lemma host_plain s t : all_bytes host_byte s = true -> unescapes EncHost (s ++ t) = unescapes EncHost t.
Proof.
  intros H. apply (unescapes_plain _ _ _ _ H). intros a HA. split; [|unfold plain_ok; rewrite HA; apply orb_true_r].
  destruct (Ascii.eqb a "%") eqn:E; [|reflexivity]. apply Ascii.eqb_eq in E. subst. discriminate.
Qed.
Lemma reg_unescapes s t : reg_name s -> unescapes EncHost (s ++ t) = unescapes EncHost t.
Proof.
  intros H. induction H as [|a s HA HT IH|h l x y s HH HX HL HT IH]; [reflexivity| |].
  - change (String a s ++ t) with (String a "" ++ (s ++ t))%string. rewrite host_plain; [exact IH|].
    cbn. rewrite (chars_all _ host_byte _ HA eq_refl). reflexivity.
  - cbn. unfold escape_ok; rewrite (proj2 (hex_cases _ _ HH)), (proj2 (hex_cases _ _ HL)), IH.
    assert (E : N.ltb x 8 = false) by (apply N.ltb_ge; exact HX). rewrite E. reflexivity.
Qed.
Lemma find_zone_none s : has_byte "%" s = false -> find_zone s = None.
Proof.
  induction s as [|a s IH]; [reflexivity|]. intros H. cbn [has_byte] in H. apply orb_false_iff in H.
  destruct H as [H1 H2]. rewrite Ascii.eqb_sym in H1. cbn [find_zone has_prefix]. rewrite H1, (IH H2). reflexivity.
Qed.

Lemma port_facts p : port p -> valid_port p = true /\ all_bytes host_byte p = true /\
  (p = "" \/ exists d, p = String ":" d /\ all_bytes is_digit d = true /\ has_byte ":" d = false) /\
  (forall f, forallb f (list_ascii_of_string (digits ++ ":")) = true -> all_bytes f p = true).
Proof.
  intros [|d H].
  - repeat split; auto.
  - assert (HD : forall f, forallb f (list_ascii_of_string digits) = true -> all_bytes f d = true)
      by (intros f HF; exact (all_chars f _ d H HF)).
    cbn [append valid_port all_bytes]. rewrite HD, HD by reflexivity. repeat split.
    + right. exists d. repeat split. apply HD; reflexivity. apply all_not. apply HD. reflexivity.
    + intros f HF. rewrite forallb_forall in HF. rewrite HF by (vm_compute; tauto). apply HD.
      apply forallb_forall. intros x HX. apply HF. rewrite bytes_app. apply in_or_app. left. exact HX.
Qed.

Lemma host_ok_uri h p : host h -> port p -> host_ok (h ++ p) = true.
Proof.
  intros HH HP. destruct (port_facts p HP) as (P1 & P2 & P3 & P4). destruct HH as [s HR|s HL].
  - unfold host_ok.
    assert (EB : has_prefix "[" (s ++ p) = false).
    { destruct HR as [|a s HA _|h' l x y s _ _ _ _].
      - destruct P3 as [->|(d & -> & _)]; reflexivity.
      - cbn [append has_prefix]. rewrite (chars_not _ (fun a => Ascii.eqb "[" a) _ HA eq_refl). reflexivity.
      - reflexivity. }
    rewrite EB.
    assert (EC : has_byte ":" s = false) by (apply all_not; apply (reg_all _ _ HR); reflexivity).
    assert (EU : unescapes EncHost (s ++ p) = true).
    { rewrite reg_unescapes by exact HR. rewrite <- (app_nil_r_s p). rewrite host_plain by exact P2. reflexivity. }
    rewrite EU. destruct P3 as [->|(d & -> & D1 & D2)].
    + rewrite app_nil_r_s, (cut_last_none _ _ EC). reflexivity.
    + rewrite (cut_last_app _ _ _ D2), D1. reflexivity.
  - unfold host_ok. change (has_prefix "[" (("[" ++ s ++ "]") ++ p)) with true. cbv iota.
    replace (("[" ++ s ++ "]") ++ p) with (("[" ++ s) ++ String "]" p) by (rewrite !app_assoc_s; reflexivity).
    assert (EP : has_byte "]" p = false) by (apply all_not; apply P4; reflexivity).
    rewrite (cut_last_app _ _ _ EP), P1.
    assert (EZ : has_byte "%" ("[" ++ s) = false) by (cbn; apply all_not; apply (all_chars _ _ s HL); reflexivity).
    rewrite (find_zone_none _ EZ). cbv iota. rewrite host_plain.
    + change (String "]" p) with ("]" ++ p). rewrite host_plain by reflexivity.
      rewrite <- (app_nil_r_s p), host_plain by exact P2. reflexivity.
    + cbn [append all_bytes]. rewrite (all_chars host_byte _ s HL eq_refl). reflexivity.
Qed.

Lemma host_all f h : host h -> forallb f (list_ascii_of_string (name_chars ++ ":[]" ++ escapes)) = true -> all_bytes f h = true.
Proof.
  intros HH HF. rewrite forallb_forall in HF.
  assert (HI : forall set, (forall x, chars set x -> In x (list_ascii_of_string (name_chars ++ ":[]" ++ escapes))) ->
    forallb f (list_ascii_of_string set) = true) by (intros set HS; apply forallb_forall; intros x HX; apply HF, HS, HX).
  destruct HH as [s HR|s HL].
  - apply (reg_all _ _ HR); apply HI; intros x HX; unfold chars in HX; rewrite !bytes_app; rewrite !in_app_iff; tauto.
  - cbn [append all_bytes]. rewrite all_app. cbn [all_bytes].
    rewrite (HF "["%char), (HF "]"%char) by (vm_compute; tauto).
    assert (HS : all_bytes f s = true).
    { apply all_in. intros b HB. apply HF. specialize (HL b HB). unfold chars in HL. revert HL.
      unfold name_chars. rewrite !bytes_app, !in_app_iff. intros [K|[K|K]]; [tauto|tauto|].
      cbn in K. destruct K as [<-|[<-|[]]]; vm_compute; tauto. }
    rewrite HS. reflexivity.
Qed.

Lemma authority_ok_uri u h p : userinfo u -> host h -> port p -> authority_ok (u ++ h ++ p) = true.
Proof.
  intros HU HH HP. unfold authority_ok.
  assert (EA : has_byte "@" (h ++ p) = false).
  { apply all_not. rewrite all_app. rewrite (host_all _ _ HH) by reflexivity.
    rewrite (proj2 (proj2 (proj2 (port_facts p HP)))) by reflexivity. reflexivity. }
  destruct HU as [|x HX].
  - cbn [append]. rewrite (cut_last_none _ _ EA). apply host_ok_uri; auto.
  - rewrite app_assoc_s. cbn [append]. rewrite (cut_last_app _ _ _ EA), host_ok_uri by auto.
    rewrite (text_all user_byte _ _ HX) by reflexivity. cbn [andb].
    destruct (cut ":" x) as [[n q] b] eqn:E. destruct (text_cut _ HX _ _ _ E) as [E1 E2]. rewrite E1, E2. reflexivity.
Qed.

(** ** Whole URIs *)

Lemma hier_all f h : hier_part h -> forallb f (list_ascii_of_string (path_chars ++ "[]" ++ escapes)) = true -> all_bytes f h = true.
Proof.
  intros HH HF. rewrite forallb_forall in HF.
  assert (HI : forall set, (forall x, chars set x -> In x (list_ascii_of_string (path_chars ++ "[]" ++ escapes))) ->
    forallb f (list_ascii_of_string set) = true) by (intros set HS; apply forallb_forall; intros x HX; apply HF, HS, HX).
  assert (HP : forall p, text path_chars p -> all_bytes f p = true).
  { intros p Hp. apply (text_all _ _ _ Hp); apply HI; intros x HX; unfold chars in HX; rewrite !bytes_app; rewrite !in_app_iff; tauto. }
  assert (HS : f "/"%char = true) by (apply HF; vm_compute; tauto).
  assert (HA : forall u h p, userinfo u -> host h -> port p -> all_bytes f (u ++ h ++ p) = true).
  { intros u h' p HU H' Hp. rewrite !all_app. rewrite (host_all _ _ H'), (proj2 (proj2 (proj2 (port_facts p Hp)))).
    - destruct HU as [|x HX]; [reflexivity|]. rewrite all_app. cbn [all_bytes]. rewrite (HF "@"%char) by (vm_compute; tauto).
      rewrite (text_all f _ _ HX); [reflexivity| |]; apply HI; intros y HY; unfold chars in HY; revert HY;
        unfold path_chars; rewrite !bytes_app; rewrite !in_app_iff; cbn; tauto.
    - apply HI. intros y HY. unfold chars in HY. revert HY. unfold path_chars, name_chars. rewrite !bytes_app; rewrite !in_app_iff; cbn. tauto.
    - apply HI. intros y HY. unfold chars in HY. revert HY. unfold path_chars. rewrite !bytes_app; rewrite !in_app_iff; cbn. tauto. }
  destruct HH as [u h' p HU H' Hp|u h' p path HU H' Hp HT|path HT _|path HT _].
  - cbn [append all_bytes]. rewrite HS. apply HA; auto.
  - replace ("//" ++ u ++ h' ++ p ++ "/" ++ path)%string with ("//" ++ (u ++ h' ++ p) ++ "/" ++ path)%string
      by (rewrite !app_assoc_s; reflexivity).
    cbn [append all_bytes]. rewrite HS. cbn [andb]. rewrite all_app, HA by auto. cbn [all_bytes andb]. rewrite HS. apply HP, HT.
  - cbn [append all_bytes]. rewrite HS. apply HP, HT.
  - apply HP, HT.
Qed.

Lemma query_all f q : query q -> forallb f (list_ascii_of_string (query_chars ++ escapes)) = true -> all_bytes f q = true.
Proof.
  intros HQ HF. rewrite forallb_forall in HF. destruct HQ as [|q HT]; [reflexivity|].
  cbn [append all_bytes]. rewrite (HF "?"%char) by (vm_compute; tauto).
  apply (text_all _ _ _ HT); apply forallb_forall; intros x HX; apply HF; rewrite bytes_app, in_app_iff; tauto.
Qed.

Lemma span_slash auth r : has_byte "/" auth = false -> (r = "" \/ exists p, r = String "/" p) ->
  span (fun a => negb (Ascii.eqb a "/")) (auth ++ r) = (auth, r).
Proof.
  intros HA HR. apply span_app.
  - revert HA. induction auth as [|a s IH]; [reflexivity|]. cbn. intros H. apply orb_false_iff in H. destruct H as [H1 H2].
    rewrite H1, IH by exact H2. reflexivity.
  - intros a t E. destruct HR as [->|(p & ->)]; [discriminate|]. injection E as <- _. reflexivity.
Qed.

Lemma scheme_nonempty s : scheme s -> (s =s? "") = false.
Proof. intros []. reflexivity. Qed.

Lemma parse_base_uri s h q : scheme s -> hier_part h -> query q ->
  exists a, parse_base (s ++ ":" ++ h ++ q) = Some (Parsed s a).
Proof.
  intros HS HH HQ. unfold parse_base.
  assert (EC : has_ctl (s ++ ":" ++ h ++ q) = false).
  { apply ctl_all. rewrite all_app. cbn [append all_bytes]. rewrite all_app.
    rewrite (scheme_all _ _ HS), (hier_all _ _ HH), (query_all _ _ HQ) by reflexivity. reflexivity. }
  rewrite EC. replace (s ++ ":" ++ h ++ q =s? "*") with false.
  2:{ symmetry. apply seqb_neq. intros E. pose proof (get_scheme_some s (h ++ q) HS) as G. rewrite E in G. injection G as G _. subst s. inversion HS. }
  rewrite (get_scheme_some _ _ HS).
  assert (EQ : cut "?" (h ++ q) = (h, match q with String _ r => r | "" => "" end, match q with "" => false | _ => true end)).
  { assert (HN : has_byte "?" h = false) by (apply all_not; apply (hier_all _ _ HH); reflexivity).
    destruct HQ as [|q HT]; [rewrite app_nil_r_s; apply cut_none; exact HN|]. apply cut_app. exact HN. }
  rewrite EQ, (scheme_nonempty _ HS). cbn [negb].
  assert (HA : forall u h' p r, userinfo u -> host h' -> port p -> (r = "" \/ exists t, r = String "/" t) ->
    unescapes EncOther r = true ->
    exists a, (let '(auth, path) := span (fun a => negb (Ascii.eqb a "/")) ((u ++ h' ++ p) ++ r) in
      if (authority_ok auth && unescapes EncOther path)%bool then Some (Parsed s auth) else None) = Some (Parsed s a)).
  { intros u h' p r HU H' HP HR HE. rewrite span_slash; [|  |exact HR].
    - rewrite authority_ok_uri by auto. rewrite HE. eexists; reflexivity.
    - apply all_not. rewrite !all_app, (host_all _ _ H'), (proj2 (proj2 (proj2 (port_facts p HP)))) by reflexivity.
      destruct HU as [|x HX]; [reflexivity|]. rewrite all_app, (text_all _ _ _ HX) by reflexivity. reflexivity. }
  destruct HH as [u h' p HU H' HP|u h' p path HU H' HP HT|path HT HN|path HT HN].
  - destruct (HA u h' p "" HU H' HP (or_introl eq_refl) eq_refl) as (a & E). rewrite app_nil_r_s in E.
    exists a. exact E.
  - destruct (HA u h' p ("/" ++ path)%string HU H' HP) as (a & E).
    + right. exists path. reflexivity.
    + change (unescapes EncOther ("/" ++ path)) with (unescapes EncOther path). eapply text_unescapes; [exact HT|reflexivity].
    + exists a. rewrite !app_assoc_s in E. exact E.
  - exists "". replace (has_prefix "//" ("/" ++ path)) with false.
    + change (unescapes EncOther ("/" ++ path)) with (unescapes EncOther path).
      rewrite (text_unescapes _ _ HT) by reflexivity. reflexivity.
    + destruct path as [|b t]; [reflexivity|]. cbn. destruct b as [[] [] [] [] [] [] [] []]; try reflexivity.
      exfalso. exact (HN t eq_refl).
  - exists "". replace (has_prefix "/" path) with false; [reflexivity|].
    destruct path as [|b t]; [reflexivity|]. cbn [has_prefix]. rewrite andb_true_r.
    destruct (Ascii.eqb "/" b) eqn:E; [|reflexivity]. apply Ascii.eqb_eq in E. subst. exfalso. exact (HN t eq_refl).
Qed.

Lemma base_no_hash s h q : scheme s -> hier_part h -> query q -> has_byte "#" (s ++ ":" ++ h ++ q) = false.
Proof.
  intros HS HH HQ. apply all_not. rewrite all_app. cbn [append all_bytes]. rewrite all_app.
  rewrite (scheme_all _ _ HS), (hier_all _ _ HH), (query_all _ _ HQ) by reflexivity. reflexivity.
Qed.

Lemma uri_parses u : uri u -> url_parses u = true.
Proof.
  intros [s h q f HS HH HQ HF]. unfold url_parses, url_parse. destruct (parse_base_uri s h q HS HH HQ) as (a & HA).
  pose proof (base_no_hash s h q HS HH HQ) as HB. destruct HF as [|f HT].
  - rewrite app_nil_r_s. rewrite (cut_none _ _ HB), HA. reflexivity.
  - replace (s ++ ":" ++ h ++ q ++ "#" ++ f)%string with ((s ++ ":" ++ h ++ q) ++ String "#" f)%string
      by (rewrite !app_assoc_s; reflexivity).
    rewrite (cut_app _ _ _ HB), HA, (text_unescapes _ _ HT) by reflexivity. reflexivity.
Qed.

Lemma uri_absolute u : uri u -> absolute u.
Proof. intros [s h q f HS _ _ _]. exists s, (h ++ q ++ f)%string. auto. Qed.

(** ** [http.Redirect] *)

(** Anything that begins with a scheme is sent as it is. *)
Lemma absolute_target path u : absolute u -> redirect_target path u = u.
Proof.
  intros (s & r & HS & ->). unfold redirect_target. destruct (url_parse (s ++ ":" ++ r)) as [p|] eqn:E; [|reflexivity].
  replace (u_scheme p =s? "") with false; [reflexivity|]. symmetry.
  unfold url_parse in E. destruct (cut "#" (s ++ ":" ++ r)) as [[base frag] b] eqn:EC.
  assert (HB : exists r', base = (s ++ ":" ++ r')%string).
  { assert (HN : has_byte "#" s = false) by (apply all_not; apply (scheme_all _ _ HS); reflexivity).
    destruct (cut "#" r) as [[b1 f1] x1] eqn:ER.
    assert (G : forall t, has_byte "#" t = false -> cut "#" (t ++ String ":" r) = ((t ++ String ":" b1)%string, f1, x1)).
    { intros t. induction t as [|c t IH]; intros HT.
      - cbn. rewrite ER. reflexivity.
      - cbn [has_byte] in HT. apply orb_false_iff in HT. destruct HT as [T1 T2]. cbn [append cut]. rewrite T1.
        rewrite (IH T2). reflexivity. }
    cbn [append] in EC. rewrite (G s HN) in EC. injection EC as <- _ _. exists b1. reflexivity. }
  destruct HB as (r' & ->). destruct (parse_base (s ++ ":" ++ r')) as [v|] eqn:EP; [|discriminate].
  destruct (unescapes EncOther frag); [|discriminate]. injection E as <-.
  unfold parse_base in EP. destruct (has_ctl (s ++ ":" ++ r')); [discriminate|].
  destruct (s ++ ":" ++ r' =s? "*") eqn:ES.
  { apply seqb_eq in ES. pose proof (get_scheme_some s r' HS) as G. rewrite ES in G. injection G as G _. subst s. inversion HS. }
  rewrite (get_scheme_some _ _ HS) in EP. destruct (cut "?" r') as [[rest q'] b'].
  pose proof (scheme_nonempty _ HS) as HE.
  repeat match type of EP with
  | (if ?c then _ else _) = _ => destruct c
  | (let '(_, _) := ?c in _) = _ => destruct c
  end; try discriminate; injection EP as <-; exact HE.
Qed.

(** ** Location *)

Lemma hex_lower n : (n < 16)%N -> hex_digit (hex_digit_lower n) n.
Proof.
  intros H. unfold hex_digit_lower. destruct (N.ltb n 10) eqn:E.
  - apply N.ltb_lt in E. rewrite N.add_comm. constructor. exact E.
  - apply N.ltb_ge in E. replace (n + 87)%N with (87 + n)%N by lia. constructor. lia.
Qed.
Lemma ascii_form_fun u : ascii_form u (hex_non_ascii u).
Proof.
  induction u as [|a u IH]; [constructor|]. unfold hex_non_ascii in *. cbn [concat_map]. unfold hex_non_ascii_byte, ascii_byte.
  destruct (N.ltb (N_of_ascii a) 128) eqn:E.
  - apply N.ltb_lt in E. constructor; auto.
  - apply N.ltb_ge in E. cbn [append].
    assert (HB : (N_of_ascii a < 256)%N) by (apply N_ascii_bounded).
    apply af_escape with (x := (N_of_ascii a / 16)%N) (y := (N_of_ascii a mod 16)%N); auto.
    + apply hex_lower. apply N.div_lt_upper_bound; lia.
    + apply hex_lower. apply N.mod_lt. lia.
    + rewrite N.mul_comm. apply N.div_mod. lia.
Qed.
Lemma hex_non_ascii_id u : all_bytes ascii_byte u = true -> hex_non_ascii u = u.
Proof.
  unfold hex_non_ascii. induction u as [|a u IH]; [reflexivity|]. cbn [all_bytes concat_map]. intros H.
  apply andb_true_iff in H. destruct H as [H1 H2]. rewrite IH by exact H2. unfold hex_non_ascii_byte. rewrite H1. reflexivity.
Qed.
Lemma uri_ascii u : uri u -> all_bytes ascii_byte u = true.
Proof.
  intros [s h q f HS HH HQ HF]. rewrite all_app. cbn [append all_bytes]. rewrite !all_app.
  rewrite (scheme_all _ _ HS), (hier_all _ _ HH), (query_all _ _ HQ) by reflexivity.
  destruct HF as [|f HT]; [reflexivity|]. cbn [append all_bytes]. rewrite (text_all _ _ _ HT) by reflexivity. reflexivity.
Qed.

(** ** Relative URLs stay on the server *)

Definition segment_ok (w : string) : Prop := w <> "" /\ has_byte "/" w = false.
Lemma split_no_byte c s w : In w (split_on c s) -> has_byte c w = false.
Proof.
  revert w. induction s as [|a s IH]; intros w H; cbn in H.
  - destruct H as [<-|[]]. reflexivity.
  - destruct (Ascii.eqb a c) eqn:E.
    + destruct H as [<-|H]; [reflexivity|auto].
    + destruct (split_on c s) as [|x l] eqn:ES.
      * destruct H as [<-|[]]. cbn. rewrite E. reflexivity.
      * destruct H as [<-|H]; [|apply IH; right; exact H]. cbn. rewrite E. apply IH. left. reflexivity.
Qed.
Lemma clean_ok rooted l done : Forall segment_ok done -> (forall w, In w l -> has_byte "/" w = false) ->
  Forall segment_ok (fold_left (clean_step rooted) l done).
Proof.
  revert done. induction l as [|w l IH]; intros done HD HL; [exact HD|]. cbn [fold_left]. apply IH.
  - unfold clean_step. destruct (w =s? "") eqn:E1; [exact HD|]. destruct (w =s? "."); [exact HD|]. cbn [orb].
    assert (HDD : segment_ok "..") by (split; [discriminate|reflexivity]).
    destruct (w =s? "..").
    + destruct done as [|d r]; [destruct rooted; repeat constructor; auto; discriminate|].
      inversion HD; subst. destruct (d =s? ".."); [constructor; auto|assumption].
    + constructor; [|exact HD]. split; [|apply HL; left; reflexivity]. apply seqb_neq. exact E1.
  - intros x HX. apply HL. right. exact HX.
Qed.
Lemma join_start l : Forall segment_ok l -> forall t, join "/" l <> String "/" t.
Proof.
  intros H t E. destruct H as [|w l [W1 W2] HL]; [discriminate|].
  destruct w as [|a w]; [congruence|]. cbn [has_byte] in W2. apply orb_false_iff in W2. destruct W2 as [W2 _].
  assert (X : exists r, join "/" (String a w :: l) = String a r) by (destruct l; eexists; reflexivity).
  destruct X as (r & X). rewrite X in E. injection E as -> _. discriminate.
Qed.
Lemma prefix_slash s : has_prefix "/" s = true -> exists r, s = String "/" r.
Proof.
  destruct s as [|a s]; [discriminate|]. cbn [has_prefix]. rewrite andb_true_r. intros H. apply Ascii.eqb_eq in H. subst. eauto.
Qed.
Lemma clean_own p : has_prefix "/" p = true -> own_path (path_clean p).
Proof.
  intros H. unfold path_clean. destruct (prefix_slash _ H) as (r & ->). change (String "/" r =s? "") with false. cbv iota.
  rewrite H. eexists. split; [reflexivity|]. apply join_start. apply Forall_rev. apply clean_ok; [constructor|].
  intros w. apply split_no_byte.
Qed.
Lemma own_add u x : own_path u -> (u = "/" -> forall t, x <> String "/" t) -> own_path (u ++ x).
Proof.
  intros (r & -> & HR) HX. exists (r ++ x)%string. split; [reflexivity|]. destruct r as [|a r].
  - exact (HX eq_refl).
  - intros t E. cbn [append] in E. injection E as -> _. exact (HR r eq_refl).
Qed.
Lemma dir_slash p : has_prefix "/" p = true -> has_prefix "/" (path_dir p) = true.
Proof.
  intros H. destruct (prefix_slash _ H) as (r & ->). unfold path_dir. cbn [cut_last].
  destruct (cut_last "/" r) as [[x y]|]; reflexivity.
Qed.
Lemma prefix_app a b : has_prefix "/" a = true -> has_prefix "/" (a ++ b) = true.
Proof. intros H. destruct (prefix_slash _ H) as (r & ->). reflexivity. Qed.

Lemma target_cases path u : has_prefix "/" path = true ->
  redirect_target path u = u \/ own_path (redirect_target path u).
Proof.
  intros HP. unfold redirect_target. destruct (url_parse u) as [v|]; [|left; reflexivity].
  destruct ((u_scheme v =s? "") && no_host (u_authority v))%bool; [|left; reflexivity]. right.
  set (full := if has_prefix "/" u then u else _).
  assert (HF : has_prefix "/" full = true).
  { unfold full. destruct (has_prefix "/" u) eqn:E; [exact E|]. apply prefix_app. apply dir_slash.
    destruct (path =s? ""); [reflexivity|exact HP]. }
  destruct (cut "?" full) as [[p q] asked] eqn:EC.
  assert (HPP : has_prefix "/" p = true).
  { destruct (prefix_slash _ HF) as (r & EF). rewrite EF in EC. cbn [cut Ascii.eqb Bool.eqb] in EC.
    destruct (cut "?" r) as [[x y] z]. injection EC as <- _ _. reflexivity. }
  pose proof (clean_own p HPP) as HC.
  set (c := if (has_suffix "/" p && negb (has_suffix "/" (path_clean p)))%bool then _ else _).
  assert (HO : own_path c).
  { unfold c. destruct (has_suffix "/" p && negb (has_suffix "/" (path_clean p)))%bool eqn:E; [|exact HC].
    apply own_add; [exact HC|]. intros E'. rewrite E' in E. rewrite andb_false_r in E. discriminate. }
  destruct asked; [|exact HO]. apply own_add; [exact HO|]. intros _ t E. discriminate.
Qed.

Lemma own_ascii u : own_path u -> own_path (hex_non_ascii u).
Proof.
  intros (r & -> & HR). unfold hex_non_ascii. cbn [concat_map]. exists (concat_map hex_non_ascii_byte r).
  split; [reflexivity|]. destruct r as [|a r]; [discriminate|]. intros t E. cbn [concat_map] in E.
  unfold hex_non_ascii_byte in E. destruct (ascii_byte a).
  - cbn [append] in E. injection E as -> _. exact (HR r eq_refl).
  - cbn [append] in E. injection E as E _. discriminate.
Qed.

(** ** What is written *)

Lemma writes_redirect meth path ct u :
  sent_to (hex_non_ascii (redirect_target path u)) (redirect_writes meth path ct u).
Proof.
  unfold redirect_writes, sent_to. set (h := hex_non_ascii (redirect_target path u)).
  destruct (negb ct && ((meth =s? "GET") || (meth =s? "HEAD")))%bool, (negb ct && (meth =s? "GET"))%bool;
    (split; [reflexivity|split; [reflexivity|]]).
  1,2: exists [OSetHeader "Location" h; OSetHeader "Content-Type" "text/html; charset=utf-8"].
  3,4: exists [OSetHeader "Location" h].
  all: eexists; (split; [reflexivity|left; reflexivity]).
Qed.

Lemma link_reads u : links_to u ("<a href=" ++ dq (hescape u) ++ ">Found</a>." ++ newline_s ++ newline_s).
Proof.
  exists (hescape u), ("." ++ newline_s ++ newline_s). split; [|apply hescape_decodes].
  unfold html_tokens.
  transitivity (html_read (SValue "a" [] "href" "") (hescape u ++ String dquote (">Found</a>." ++ newline_s ++ newline_s))).
  { unfold dq. cbn [append]. rewrite !app_assoc_s. cbn [append]. cbn.
    destruct (html_read _ _); reflexivity. }
  rewrite read_value0 by apply hescape_quiet. vm_compute. reflexivity.
Qed.
