(** * Properties of key files and published key sets (crypto/key.go). *)
From Coq Require Import Lia.
From Verif Require Import GoStr StrFacts Codec Core Json Misc Hoare Spec TokenSpec AuthzSpec AuthzFacts Pem PemSpec PemFacts Crypto PropsMisc.

Lemma seqP a b : reflect (a = b) (a =s? b).
Proof. apply String.eqb_spec. Qed.

(** ** C67 Keys are loaded from blocks with the right label only. *)

Theorem C67_public_keys : forall L text k,
  load_public_text L text = Loaded k <->
  exists der, pem_decode text = Some ("PUBLIC KEY", der) /\ k_pkix L der = Some (PkRsa k).
Proof.
  intros L text k. unfold load_public_text, load_public_data.
  destruct (pem_decode text) as [[typ der]|]; [|split; [discriminate|intros (d & H & _); discriminate]].
  destruct (seqP typ "PUBLIC KEY") as [->|HN]; cbn [negb].
  - destruct (k_pkix L der) as [[k'|n]|] eqn:E; split; try discriminate.
    + intros H. injection H as ->. eauto.
    + intros (d & H & H2). injection H as <-. congruence.
    + intros (d & H & H2). injection H as <-. congruence.
    + intros (d & H & H2). injection H as <-. congruence.
  - split; [discriminate|]. intros (d & H & _). congruence.
Qed.
Print Assumptions C67_public_keys.

Theorem C67_private_keys : forall L text k,
  load_private_text L text = Loaded k <->
  exists der, pem_decode text = Some ("RSA PRIVATE KEY", der) /\ k_pkcs1 L der = Some k.
Proof.
  intros L text k. unfold load_private_text, load_private_data.
  destruct (pem_decode text) as [[typ der]|]; [|split; [discriminate|intros (d & H & _); discriminate]].
  destruct (seqP typ "RSA PRIVATE KEY") as [->|HN]; cbn [negb].
  - destruct (k_pkcs1 L der) as [k'|] eqn:E; split; try discriminate.
    + intros H. injection H as ->. eauto.
    + intros (d & H & H2). injection H as <-. congruence.
    + intros (d & H & H2). injection H as <-. congruence.
  - split; [discriminate|]. intros (d & H & _). congruence.
Qed.
Print Assumptions C67_private_keys.

(* The first block of a text, and what it says, in terms of the text itself: a text
   whose first block is labelled [label] and holds [der] is accepted exactly if the label is
   right and [der] is a key of the right kind. *)
Theorem C67_key_texts_are_read : forall L before label der text k,
  no_begin before -> pem_block before label der text ->
  (load_public_text L text = Loaded k <-> label = "PUBLIC KEY" /\ k_pkix L der = Some (PkRsa k)) /\
  (load_private_text L text = Loaded k <-> label = "RSA PRIVATE KEY" /\ k_pkcs1 L der = Some k).
Proof.
  intros L before label der text k HN HB. pose proof (pem_read _ _ _ _ HN HB) as E. split.
  - rewrite C67_public_keys, E. split; [intros (d & H & HK); injection H as -> ->; auto|intros [-> HK]; eauto].
  - rewrite C67_private_keys, E. split; [intros (d & H & HK); injection H as -> ->; auto|intros [-> HK]; eauto].
Qed.
Print Assumptions C67_key_texts_are_read.

(* A key that is loaded was in the text, in a block of its own. *)
Theorem C67_keys_were_in_the_text : forall L text k,
  (load_public_text L text = Loaded k ->
   exists before der, line_start before /\ pem_block before "PUBLIC KEY" der text /\ k_pkix L der = Some (PkRsa k)) /\
  (load_private_text L text = Loaded k ->
   exists before der, line_start before /\ pem_block before "RSA PRIVATE KEY" der text /\ k_pkcs1 L der = Some k).
Proof.
  intros L text k. split; intros H.
  - apply C67_public_keys in H. destruct H as (der & E & HK). destruct (pem_sound _ _ _ E) as (before & HL & HB). eauto.
  - apply C67_private_keys in H. destruct H as (der & E & HK). destruct (pem_sound _ _ _ E) as (before & HL & HB). eauto.
Qed.
Print Assumptions C67_keys_were_in_the_text.

(* [base64] is the encoding of RFC 4648: what that yields for any bytes stands for them. *)
Lemma sx_char_back s : char_sx B64Std (sx_char B64Std s) = Some s.
Proof. destruct s as [[] [] [] [] [] []]; reflexivity. Qed.
Lemma sx_char_no_pad s : Ascii.eqb (sx_char B64Std s) "=" = false.
Proof. destruct s as [[] [] [] [] [] []]; reflexivity. Qed.
Lemma byte_a_back a b : byte_a (sx_1 a) (sx_2 a b) = a.
Proof. destruct a, b; reflexivity. Qed.
Lemma byte_b_back a b c : byte_b (sx_2 a b) (sx_3 b c) = b.
Proof. destruct a, b, c; reflexivity. Qed.
Lemma byte_c_back b c : byte_c (sx_3 b c) (sx_4 c) = c.
Proof. destruct b, c; reflexivity. Qed.
Lemma std_back n : forall s, (String.length s <= n)%nat -> b64_quanta B64Std (b64_encode B64Std s) = Some s.
Proof.
  induction n as [|n IH]; intros s Hn; [destruct s; [reflexivity|simpl in Hn; lia]|].
  destruct s as [|a [|b [|c s]]]; [reflexivity| | |].
  - cbn [b64_encode b64_quanta]. rewrite !sx_char_back. cbn. rewrite byte_a_back. reflexivity.
  - cbn [b64_encode b64_quanta]. rewrite !sx_char_back, sx_char_no_pad. cbn. rewrite byte_a_back, byte_b_back. reflexivity.
  - cbn [b64_encode b64_quanta]. rewrite !sx_char_back, !sx_char_no_pad, IH by (simpl in Hn; lia).
    rewrite byte_a_back, byte_b_back, byte_c_back. reflexivity.
Qed.
Theorem C67_any_bytes : forall bytes, base64 (rfc4648_std bytes) bytes.
Proof. intros bytes. rewrite <- b64_std_rfc. eapply base64_quanta; [apply le_n|]. apply (std_back _ _ (le_n _)). Qed.
Print Assumptions C67_any_bytes.

(* No text is accepted both as a public and as a private key, so a private key
   given to the JWK endpoint by mistake is not published. *)
Theorem C67_no_mixup : forall L text k k',
  load_public_text L text = Loaded k -> load_private_text L text <> Loaded k'.
Proof.
  intros L text k k' H H'. apply C67_public_keys in H. apply C67_private_keys in H'.
  destruct H as (d & H & _). destruct H' as (d' & H' & _). rewrite H in H'. discriminate.
Qed.
Print Assumptions C67_no_mixup.

Theorem C67_files : forall L content k,
  (load_public_file L content = Loaded k <-> exists text, content = Some text /\ load_public_text L text = Loaded k) /\
  (load_private_file L content = Loaded k <-> exists text, content = Some text /\ load_private_text L text = Loaded k) /\
  load_public_file L content <> LoadPanic /\ load_private_file L content <> LoadPanic.
Proof.
  intros L content k. unfold load_public_file, load_private_file, load_public_text, load_private_text. split; [|split; [|split]].
  - destruct content as [t|]; split; [eauto|intros (t' & H & H2); congruence|discriminate|intros (t' & H & _); discriminate].
  - destruct content as [t|]; split; [eauto|intros (t' & H & H2); congruence|discriminate|intros (t' & H & _); discriminate].
  - destruct content as [t|]; [|discriminate]. unfold load_public_data. destruct (pem_decode t) as [[ty d]|]; [|discriminate].
    destruct (negb (ty =s? "PUBLIC KEY")); [discriminate|]. destruct (k_pkix L d) as [[?|?]|]; discriminate.
  - destruct content as [t|]; [|discriminate]. unfold load_private_data. destruct (pem_decode t) as [[ty d]|]; [|discriminate].
    destruct (negb (ty =s? "RSA PRIVATE KEY")); [discriminate|]. destruct (k_pkcs1 L d); discriminate.
Qed.
Print Assumptions C67_files.

(** ** C68 Published keys are found again under their IDs. *)

(* What is assumed of the jwk library: it reads what it writes. *)
Definition reads_back (L : cryptolib) : Prop := forall keys doc,
  k_marshal L keys = Some doc ->
  k_parse L doc = Some (map (fun kv => Jwk (fst kv) (Some (Some (snd kv)))) keys).

Lemma lookup_nodup (keys : kvs) kid : NoDup (map fst keys) ->
  filter (fun k => j_kid k =s? kid) (map (fun kv => Jwk (fst kv) (Some (Some (snd kv)))) keys) =
  match kv_get kid keys with Some k => [Jwk kid (Some (Some k))] | None => [] end.
Proof.
  induction keys as [|[x v] keys IH]; intros HN; [reflexivity|]. inversion HN as [|? ? HX HK]; subst.
  cbn [map filter fst snd j_kid kv_get]. rewrite (IH HK). destruct (seqP x kid) as [->|HD].
  - rewrite seqb_refl. assert (HG : kv_get kid keys = None).
    { destruct (kv_get kid keys) eqn:E; [|reflexivity]. exfalso. apply HX. clear -E.
      induction keys as [|[y w] keys IH]; [discriminate|]. cbn [kv_get] in E. simpl.
      destruct (seqP kid y) as [->|]; [auto|right; auto]. }
    rewrite HG. reflexivity.
  - destruct (seqP kid x) as [->|_]; [contradiction|reflexivity].
Qed.

Lemma kv_get_in (keys : kvs) kid k : NoDup (map fst keys) -> (kv_get kid keys = Some k <-> In (kid, k) keys).
Proof.
  induction keys as [|[x v] keys IH]; intros HN; [simpl; split; [discriminate|contradiction]|].
  inversion HN as [|? ? HX HK]; subst. cbn [kv_get]. simpl. destruct (seqP kid x) as [->|HD].
  - split; [intros H; left; congruence|]. intros [H|H]; [congruence|]. exfalso. apply HX.
    apply (in_map fst) in H. exact H.
  - rewrite (IH HK). split; [auto|]. intros [H|H]; [congruence|auto].
Qed.

Theorem C68_published_keys_are_found : forall L l e tr h tr' res doc kid,
  reads_back L -> (forall k, k_new L k = true) ->
  jwk_adds (jwk_loader L) new_jwk l = Some e ->
  exec (jwk_handler (public_keys_jwk L) e) tr (Done h) -> exec h tr' res ->
  In (OBody doc) (ops tr') -> doc <> "" ->
  (forall k, load_public_jwk L doc kid = Loaded k <-> last_added (jwk_loader L) l kid k) /\
  load_public_jwk L doc kid <> LoadPanic.
Proof.
  intros L l e tr h tr' res doc kid HL HNew HA HH HR HB HD.
  destruct (C51_published _ _ _ _ _ _ _ _ HA HH HR) as (_ & _ & keys & HN & HK & HT).
  assert (HB' : In (OBody doc) (http_ops tr')) by (unfold http_ops; apply filter_In; split; [exact HB|reflexivity]).
  rewrite HT in HB'. unfold public_keys_jwk in HB'.
  assert (HF : forallb (fun kv => k_new L (snd kv)) keys = true).
  { apply forallb_forall. intros x _. apply HNew. }
  rewrite HF in HB'. unfold answer in HB'. apply in_app_or in HB'.
  assert (HM : k_marshal L keys = Some doc).
  { destruct HB' as [HB'|HB']; [simpl in HB'; destruct HB' as [HB'|[]]; discriminate|].
    destruct (k_marshal L keys) as [d|]; simpl in HB'.
    - destruct HB' as [HB'|[HB'|[]]]; [discriminate|]. congruence.
    - destruct HB' as [HB'|[HB'|[]]]; [discriminate|]. congruence. }
  unfold load_public_jwk. rewrite (HL _ _ HM), (lookup_nodup _ kid HN).
  destruct (kv_get kid keys) as [k|] eqn:EG; cbn [j_rsa].
  - split; [|discriminate]. intros k'. rewrite <- HK, <- (kv_get_in _ _ _ HN), EG. split; intros H; congruence.
  - split; [|discriminate]. intros k'. rewrite <- HK, <- (kv_get_in _ _ _ HN), EG. split; intros H; discriminate.
Qed.
Print Assumptions C68_published_keys_are_found.

(* A key set from elsewhere is not always met by a key or an error: if the library
   cannot materialize the first key of that ID, the loader crashes; and exactly then. *)
Theorem C68_crash : forall L doc kid,
  load_public_jwk L doc kid = LoadPanic <->
  exists keys k rest, k_parse L doc = Some keys /\
    filter (fun k => j_kid k =s? kid) keys = k :: rest /\ j_rsa k = Some None.
Proof.
  intros L doc kid. unfold load_public_jwk. destruct (k_parse L doc) as [keys|]; [|split; [discriminate|]].
  - destruct (filter _ keys) as [|k rest] eqn:EF; split.
    + discriminate.
    + intros (keys' & k & rest & H & H2 & _). injection H as <-. congruence.
    + intros H. destruct (j_rsa k) as [[?|]|] eqn:EJ; try discriminate. exists keys, k, rest. auto.
    + intros (keys' & k' & rest' & H & H2 & H3). injection H as <-. rewrite EF in H2. injection H2 as -> ->. rewrite H3. reflexivity.
  - intros (keys' & k & rest & H & _). discriminate.
Qed.
Print Assumptions C68_crash.

(** A library over a toy encoding: documents are the IDs and keys, a space in between. *)
Definition toy : cryptolib :=
  CryptoLib
    (fun d => Some (PkRsa d)) (fun d => Some d) (fun _ => true)
    (fun keys => match keys with [] => Some "none" | [("a", "k2"); ("b", "k1")] => Some "two" | _ => None end)
    (fun doc => if doc =s? "none" then Some []
                else if doc =s? "two" then Some [Jwk "a" (Some (Some "k2")); Jwk "b" (Some (Some "k1"))]
                else if doc =s? "bad" then Some [Jwk "a" (Some None)] else None).

Theorem C68_crash_refuted : exists L doc kid, load_public_jwk L doc kid = LoadPanic.
Proof. exists toy, "bad", "a". reflexivity. Qed.
Print Assumptions C68_crash_refuted.

(** Key files: "azE=" is k1, "azI=" is k2. *)
Definition key_file (label base64 : string) : string :=
  lines ["a key"; "-----BEGIN " ++ label ++ "-----"; base64; "-----END " ++ label ++ "-----"].
Definition pub1 := key_file "PUBLIC KEY" "azE=".
Definition pub2 := key_file "PUBLIC KEY" "azI=".
Definition priv := key_file "RSA PRIVATE KEY" "azE=".

Example C67_example :
  load_public_text toy pub1 = Loaded "k1" /\ load_private_text toy priv = Loaded "k1" /\
  load_public_text toy priv = LoadError "PEM block isn't a RSA PRIVATE KEY".
Proof. repeat split. Qed.

Example C67_text_example :
  no_begin (lines ["a key"]) /\ pem_block (lines ["a key"]) "PUBLIC KEY" "k1" pub1 /\
  load_public_text toy pub1 = Loaded "k1".
Proof.
  split; [|split; [|reflexivity]].
  - exists ["a key"]. split; [reflexivity|]. constructor; [|constructor]. split; [|intros y; discriminate].
    apply unbroken_has. reflexivity.
  - exists "", [], (lines ["azE="]), LF. split; [reflexivity|]. split; [apply unbroken_has; reflexivity|].
    assert (HT : line_tail "") by (exists ""; split; [intros a []|auto]).
    split; [exact HT|]. split; [right; exists "", ""; auto|]. split; [constructor|]. split; [right; exists "azE="; reflexivity|].
    exact (C67_any_bytes "k1").
Qed.

Example C68_example :
  reads_back toy /\
  jwk_adds (jwk_loader toy) new_jwk [("a", pub1); ("b", pub1); ("a", pub2)] = Some [("a", "k2"); ("b", "k1")] /\
  public_keys_jwk toy [("a", "k2"); ("b", "k1")] = Some "two" /\
  load_public_jwk toy "two" "a" = Loaded "k2" /\ load_public_jwk toy "two" "c" = LoadError "indicated key id not found".
Proof.
  split; [|repeat split].
  intros keys doc H. destruct keys as [|kv keys]; [injection H as <-; reflexivity|].
  cbn [k_marshal toy] in H.
  assert (HX : (kv :: keys)%list = [("a", "k2"); ("b", "k1")] /\ doc = "two").
  { repeat match type of H with context [match ?x with _ => _ end] => destruct x; try discriminate end.
    injection H as <-. auto. }
  destruct HX as [-> ->]. reflexivity.
Qed.
