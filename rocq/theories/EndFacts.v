(** * What the two sides of a code flow see: proofs. *)
From Coq Require Import Lia Permutation.
From Verif Require Import GoStr Codec StrFacts Core World Spec Grants TokenEndpoint TokenSpec AuthzEndpoint AuthzSpec AuthzFacts AuthzMore CodecSpec CodecFacts Http HttpSpec HttpFacts
  SysSpec TraceSpec WorkSpec EndSpec PropsCodec.
From Verif Require JsonSpec JsonRead JsonParse JsonFacts PropsMisc.

Lemma answered_unique uri params params' tr : answered "form_post" uri params tr -> answered "form_post" uri params' tr -> params = params'.
Proof.
  intros (pre & ta & -> & _ & H1) (pre' & ta' & E & _ & H2).
  inversion H1 as [l HP _ E1|M E1|M _ E1]; [|discriminate M|destruct (M eq_refl)].
  inversion H2 as [l' HP' _ E2|M E2|M _ E2]; [|discriminate M|destruct (M eq_refl)].
  assert (HL : length pre = length pre').
  { apply (f_equal (@length event)) in E. rewrite !app_length, <- E1, <- E2 in E. simpl in E. lia. }
  assert (ET : ta = ta').
  { clear - E HL. revert pre' E HL. induction pre as [|e pre IH]; intros [|e' pre'] E HL; try discriminate HL; [exact E|].
    simpl in E. injection E as _ E. injection HL as HL. exact (IH _ E HL). }
  rewrite <- E1, <- E2 in ET. apply (f_equal (fun l => match l with e :: _ => ev_op e | [] => ONow end)) in ET.
  simpl in ET. injection ET as ->. reflexivity.
Qed.

Lemma decodes_fun s t : html_decodes s t -> forall t', html_decodes s t' -> t = t'.
Proof.
  induction 1 as [|s c rest t H1 H2 IH|a s t H1 H2 IH]; intros t' H'.
  - inversion H' as [|s c rest t HR HD E1 E2|]; [reflexivity|]. discriminate HR.
  - inversion H' as [E1 E2|s' c' rest' t2 HR HD E1 E2|a s' t2 HR HD E1 E2]; subst.
    + discriminate H1.
    + rewrite H1 in HR. injection HR as <- <-. f_equal. auto.
    + rewrite H1 in HR. discriminate.
  - inversion H' as [|s' c' rest' t2 HR HD E1 E2|a' s' t2 HR HD E1 E2]; subst.
    + rewrite H1 in HR. discriminate.
    + f_equal. auto.
Qed.
Lemma posts_unique doc uri l l' : posts_form doc uri l -> posts_form doc uri l' -> Permutation l l'.
Proof.
  intros (o & raw & P1 & F1 & T1) (o' & raw' & P2 & F2 & T2). rewrite T1 in T2. injection T2 as T2.
  apply app_inv_tail in T2.
  assert (raw = raw') as <-.
  { clear - T2. revert raw' T2. induction raw as [|[k v] raw IH]; intros [|[k' v'] raw'] T2; try discriminate; [reflexivity|].
    simpl in T2. injection T2 as -> -> T2. f_equal. auto. }
  assert (o = o') as <-.
  { clear - F1 F2. revert o' F2. induction F1 as [|[k v] [k1 v1] raw o [A1 A2] HF IH]; intros o' F2; inversion F2 as [|x [k2 v2] y o2 [B1 B2] HF2]; subst; [reflexivity|].
    simpl in *. subst. f_equal; [|auto]. f_equal. eapply decodes_fun; eauto. }
  rewrite <- P1, <- P2. reflexivity.
Qed.

(** What the client gets is what was sent. *)
Lemma sees_sent E pol info req tc pre params l : completed E pol info req tc -> http_ops pre = [] ->
  answered (rq_mode req) (rq_redirect req) params (pre ++ tc) ->
  no_byte "#" (rq_redirect req) -> no_byte "?" (rq_redirect req) -> no_byte dquote (rq_redirect req) ->
  client_sees (rq_mode req) (rq_redirect req) (pre ++ tc) l -> Permutation l params.
Proof.
  intros HC HP HA N1 N2 N3 HS. destruct HS as [loc q M1 M2 E1 Q1 F1|loc f M E1 Q1 F1|doc M E1 Q1].
  - destruct (C44_query _ _ _ _ [] HA M1 M2 N1 (or_introl (conj N2 eq_refl))) as (loc' & q' & so & x & E2 & _ & Q2 & _ & F2 & P2).
    rewrite E1 in E2. injection E2 as <-. rewrite <- (query_part_unique _ _ _ Q1 Q2) in F2.
    apply form_text_iff in F1. apply parse_query_form in F2. simpl in F2. rewrite F1 in F2. subst. exact P2.
  - rewrite M in HA. destruct (C44_fragment _ _ _ [] HA (or_introl (conj N1 eq_refl))) as (loc' & q' & so & x & E2 & _ & Q2 & F2 & P2).
    rewrite E1 in E2. injection E2 as <-. rewrite <- (fragment_part_unique _ _ _ Q1 Q2) in F2.
    apply form_text_iff in F1. apply parse_query_form in F2. simpl in F2. rewrite F1 in F2. subst. exact P2.
  - destruct (completed_sends _ _ _ _ _ HC) as (params' & K1 & K2).
    assert (K3 : answered (rq_mode req) (rq_redirect req) params' (pre ++ tc)) by (apply AuthzMore.answered_app; auto).
    pose proof (answered_form _ _ _ _ _ K3 K2 N3 E1) as K4.
    rewrite M in HA, K3. rewrite (answered_unique _ _ _ _ HA K3). eapply posts_unique; eauto.
Qed.

Lemma first_in k l v : first_value k l v -> In (k, v) l.
Proof. induction 1; simpl; auto. Qed.

(** What a client reads in the answer of the token endpoint. *)
Lemma reads_unique body l l' : JsonSpec.reads_object body l -> JsonSpec.reads_object body l' -> l = l'.
Proof.
  unfold JsonSpec.reads_object. intros H1 H2. apply JsonRead.jparse_iff in H1, H2. rewrite H1 in H2. injection H2 as <-. reflexivity.
Qed.
Lemma client_reads_token rs t : GoStr.is_int64 (rs_expires rs) = true -> utf8 (rs_access rs) ->
  (client_reads (response_json rs) t <-> t = rs_access rs).
Proof.
  intros HI HU. pose proof (PropsMisc.response_fields rs HI) as (l & H1 & _ & _ & _ & H2 & _).
  assert (HE : JsonParse.str_field "access_token" l = rs_access rs).
  { rewrite (JsonFacts.repaired_unique _ _ H2). apply JsonFacts.to_valid_fixed. exact HU. }
  split.
  - intros (l' & H3 & <-). rewrite <- (reads_unique _ _ _ H1 H3). exact HE.
  - intros ->. exists l. auto.
Qed.
