(** * C89: the hashes are SHA-2 as FIPS 180-4 defines it.

    Sha.v computes with numbers and bytes; FipsSpec.v states the standard over bits and takes
    the constants from the roots of the primes. *)
From Coq Require Import List NArith Arith Lia.
From Verif Require Import GoStr Codec Sha Utils Core IdToken OAuthError Assertion Jwt Grants TokenEndpoint Spec TokenSpec AuthzSpec JwtSpec UtilsFacts ShaFacts AuthzFacts JwtFacts TokenProofs Demo TokenComplete TokenMore PropsUtil.
From Verif Require FipsSpec FipsFacts.
Import ListNotations.
Open Scope string_scope.

Notation sha := FipsSpec.sha.
Notation SHA_256 := FipsSpec.SHA_256.
Notation SHA_384 := FipsSpec.SHA_384.
Notation SHA_512 := FipsSpec.SHA_512.

Lemma octets_bits s : FipsSpec.octets s = FipsFacts.bits_of (list_ascii_of_string s).
Proof.
  unfold FipsSpec.octets, FipsFacts.bits_of. induction (list_ascii_of_string s) as [|a l IH]; [reflexivity|].
  cbn [flat_map]. rewrite IH. f_equal. destruct a as [[] [] [] [] [] [] [] []]; reflexivity.
Qed.
Lemma octets_length s : length (FipsSpec.octets s) = (8 * String.length s)%nat.
Proof.
  rewrite octets_bits, (FipsFacts.bits_of_length SHA_256). induction s as [|a s IH]; [reflexivity|]. cbn [list_ascii_of_string length String.length]. lia.
Qed.
Lemma octets_inj s : forall t, FipsSpec.octets s = FipsSpec.octets t -> s = t.
Proof.
  induction s as [|a s IH]; intros [|b t] H; [reflexivity|apply (f_equal (@length bool)) in H; rewrite !octets_length in H; cbn in H; lia..|].
  change (FipsSpec.bits 8 (N_of_ascii a) ++ FipsSpec.octets s = FipsSpec.bits 8 (N_of_ascii b) ++ FipsSpec.octets t)%list in H.
  apply FipsFacts.app_eq_length in H; [|rewrite !FipsFacts.bits_length; reflexivity]. destruct H as [H1 H2]. f_equal; [|apply IH, H2].
  assert (B : forall x, FipsSpec.bits 8 (N_of_ascii x) = byte_bits x) by (intros [[] [] [] [] [] [] [] []]; reflexivity).
  rewrite !B in H1. apply (f_equal FipsSpec.value) in H1. rewrite !FipsFacts.byte_value in H1.
  rewrite <- (ascii_N_embedding a), <- (ascii_N_embedding b), H1. reflexivity.
Qed.

Lemma substring_prefix n : forall s, (n <= String.length s)%nat -> list_ascii_of_string (substring 0 n s) = firstn n (list_ascii_of_string s).
Proof. induction n as [|n IH]; intros [|a s] H; cbn in *; try reflexivity; try lia. f_equal. apply IH. lia. Qed.
Lemma bits_firstn n : forall l, FipsFacts.bits_of (firstn n l) = firstn (8 * n) (FipsFacts.bits_of l).
Proof.
  induction n as [|n IH]; intros [|a l]; [reflexivity..|rewrite firstn_nil; reflexivity|].
  cbn [firstn]. unfold FipsFacts.bits_of. cbn [flat_map]. fold (FipsFacts.bits_of (firstn n l)). fold (FipsFacts.bits_of l). rewrite IH.
  rewrite firstn_app, FipsFacts.byte_length. replace (8 * S n - 8)%nat with (8 * n)%nat by lia. rewrite (firstn_all2 (byte_bits a)) by (rewrite FipsFacts.byte_length; lia). reflexivity.
Qed.
Lemma octets_substring n s : (n <= String.length s)%nat -> FipsSpec.octets (substring 0 n s) = firstn (8 * n) (FipsSpec.octets s).
Proof. intros H. rewrite !octets_bits, substring_prefix, bits_firstn by exact H. reflexivity. Qed.
Lemma octets_all s : FipsSpec.octets s = firstn (8 * String.length s) (FipsSpec.octets s).
Proof. rewrite firstn_all2; [reflexivity|rewrite octets_length; lia]. Qed.

Lemma sha256_iff s h : sha SHA_256 s h <-> h = sha256 s.
Proof.
  unfold FipsSpec.sha. rewrite (octets_bits s), (FipsFacts.digest_iff _ _ FipsFacts.fits_256 FipsFacts.K256_checked FipsFacts.H256_checked).
  rewrite <- octets_bits. fold (sha256 s). change (FipsSpec.v_digest SHA_256) with (8 * 32)%nat.
  rewrite <- (sha256_length s), <- octets_all. split; [apply octets_inj|intros ->; reflexivity].
Qed.
Lemma sha512_iff s h : sha SHA_512 s h <-> h = sha512 s.
Proof.
  unfold FipsSpec.sha. rewrite (octets_bits s), (FipsFacts.digest_iff _ _ FipsFacts.fits_512 FipsFacts.K512_checked FipsFacts.H512_checked).
  rewrite <- octets_bits. fold (sha512 s). change (FipsSpec.v_digest SHA_512) with (8 * 64)%nat.
  rewrite <- (sha512_length s), <- octets_all. split; [apply octets_inj|intros ->; reflexivity].
Qed.
Lemma sha384_iff s h : sha SHA_384 s h <-> h = sha384 s.
Proof.
  unfold FipsSpec.sha. rewrite (octets_bits s), (FipsFacts.digest_iff _ _ FipsFacts.fits_384 FipsFacts.K512_checked FipsFacts.H384_checked).
  rewrite <- octets_bits. change (FipsSpec.v_digest SHA_384) with (8 * 48)%nat. unfold sha384.
  rewrite <- (octets_substring 48) by (rewrite sha2_length; [cbn; lia|reflexivity]).
  split; [apply octets_inj|intros ->; reflexivity].
Qed.

(* The three functions of the model are those of the standard; every message has one digest. *)
Theorem C89_sha2 : forall s h,
  (sha SHA_256 s h <-> h = sha256 s) /\ (sha SHA_384 s h <-> h = sha384 s) /\ (sha SHA_512 s h <-> h = sha512 s).
Proof. intros s h. split; [apply sha256_iff|]. split; [apply sha384_iff|apply sha512_iff]. Qed.
Print Assumptions C89_sha2.

(* RFC 7636, 4.6 *)
Definition derived (method challenge verifier : string) : Prop :=
  method = "plain" /\ challenge = verifier \/
  method = "S256" /\ exists h, sha SHA_256 verifier h /\ challenge = rfc4648_url h.
Theorem C89_code_challenges : forall method challenge verifier,
  (exists v, find_verifier method = Some v /\ pkce_verify v challenge verifier = true) <-> derived method challenge verifier.
Proof.
  intros m c v. rewrite (pkce_spec m v c). unfold derived. split.
  - intros [H|[H1 H2]]; [left; exact H|right]. split; [exact H1|]. exists (sha256 v). split; [apply sha256_iff; reflexivity|exact H2].
  - intros [H|[H1 (h & H2 & H3)]]; [left; exact H|right]. apply sha256_iff in H2. subst h. auto.
Qed.
Print Assumptions C89_code_challenges.

(* A code is exchanged only for the challenge that belongs to its verifier. *)
Theorem C89_exchanged : forall J te r tr res,
  only_bundled J te -> registered te (form_value r "grant_type") (authorization_code J) ->
  exec (token_handler J te r) tr res -> In 200%Z (statuses tr) ->
  exists sess, In (Ev (OFindSession (form_value r "code")) (Some sess, None)) tr /\
    (as_verifier sess = "" \/ derived (form_value r "code_challenge_method") (form_value r "code_challenge") (as_verifier sess)).
Proof.
  intros J te r tr res HB HR HE HS. destruct (code_exchange_sound J te r tr res HB HR HE HS) as (c & now & th & rs & HV & sess & info & tok & HC & _ & _ & _ & _ & rest & HD & _).
  exists sess. split.
  - destruct HV as (ta & l & _ & -> & _). apply in_or_app. right. right. apply in_or_app. left.
    assert (X : In (Ev (OFindSession (form_value r "code")) (Some sess, None)) (data_calls th)) by (rewrite HD; left; reflexivity).
    apply filter_In in X. apply X.
  - destruct HC as (_ & _ & _ & _ & [H|H]); [left; exact H|right]. apply C89_code_challenges. apply pkce_spec. exact H.
Qed.
Print Assumptions C89_exchanged.

(* OpenID Connect Core, 3.1.3.6 and 3.3.2.11: half of the digest the algorithm's name ends in. *)
Definition half_of (V : FipsSpec.variant) (t h : string) : Prop :=
  exists full, sha V t full /\ h = substring 0 (FipsSpec.v_digest V / 16) full.
Theorem C89_token_hashes : forall alg t v,
  id_hash alg t = Some v <->
  exists V p h, In (V, alg) [(SHA_256, p ++ "256"); (SHA_384, p ++ "384"); (SHA_512, p ++ "512")] /\ half_of V t h /\ v = rfc4648_std h.
Proof.
  intros alg t v. rewrite id_hash_spec. split.
  - intros (h & [(p & -> & ->)|[(p & -> & ->)|(p & -> & ->)]] & ->).
    + exists SHA_256, p. eexists. split; [left; reflexivity|]. split; [|reflexivity]. exists (sha256 t). split; [apply sha256_iff; reflexivity|reflexivity].
    + exists SHA_384, p. eexists. split; [right; left; reflexivity|]. split; [|reflexivity]. exists (sha384 t). split; [apply sha384_iff; reflexivity|reflexivity].
    + exists SHA_512, p. eexists. split; [right; right; left; reflexivity|]. split; [|reflexivity]. exists (sha512 t). split; [apply sha512_iff; reflexivity|reflexivity].
  - intros (V & p & h & HI & (full & HF & ->) & ->). destruct HI as [E|[E|[E|[]]]]; injection E as <- <-; eexists; (split; [|reflexivity]).
    + left. apply sha256_iff in HF. subst. eauto.
    + right. left. apply sha384_iff in HF. subst. eauto.
    + right. right. apply sha512_iff in HF. subst. eauto.
Qed.
Print Assumptions C89_token_hashes.

(* RFC 7518, 3.2: what assertions and ID tokens are signed with when the key is a secret. *)
Definition variant_of : list (string * FipsSpec.variant) := [("HS256", SHA_256); ("HS384", SHA_384); ("HS512", SHA_512)].
Lemma mac_iff V H B : (forall s h, sha V s h <-> h = H s) -> B = (2 * FipsSpec.v_w V)%nat ->
  forall k m o, FipsSpec.mac V k m o <-> rfc2104 H B k m o.
Proof.
  intros HH -> k m o. unfold FipsSpec.mac, rfc2104. split.
  - intros (k' & z & inner & HK & HZ & HL & HI & HO). apply HH in HI, HO. subst. exists k', z.
    split; [destruct HK as [[X ->]|[X Y]]; [left; split; [lia|reflexivity]|right; split; [lia|apply HH, Y]]|].
    split; [|split; [lia|reflexivity]]. eapply Forall_impl; [|exact HZ]. intros a Ha. rewrite <- (ascii_N_embedding a), Ha. reflexivity.
  - intros (k' & z & HK & HZ & HL & ->). exists k', z. eexists.
    split; [destruct HK as [[X ->]|[X ->]]; [left; split; [lia|reflexivity]|right; split; [lia|apply HH; reflexivity]]|].
    split; [eapply Forall_impl; [|exact HZ]; intros a ->; reflexivity|]. split; [lia|]. split; apply HH; reflexivity.
Qed.
Theorem C89_macs : forall alg b msg sig,
  (exists f, hs_method alg = Some f /\ f b msg = sig) <-> exists V, In (alg, V) variant_of /\ FipsSpec.mac V b msg sig.
Proof.
  intros alg b msg sig. split.
  - intros (f & HF & HS). apply hs_method_spec in HF. destruct HF as (H & B & HA & ->).
    apply (hmac_rfc H B b msg sig (hs_length _ _ _ HA)) in HS. destruct HA.
    + exists SHA_256. split; [left; reflexivity|]. apply (mac_iff SHA_256 sha256 64 sha256_iff eq_refl), HS.
    + exists SHA_384. split; [right; left; reflexivity|]. apply (mac_iff SHA_384 sha384 128 sha384_iff eq_refl), HS.
    + exists SHA_512. split; [right; right; left; reflexivity|]. apply (mac_iff SHA_512 sha512 128 sha512_iff eq_refl), HS.
  - intros (V & HI & HM).
    assert (X : exists H B, hs_alg alg H B /\ rfc2104 H B b msg sig).
    { destruct HI as [E|[E|[E|[]]]]; injection E as <- <-.
      - exists sha256, 64%nat. split; [constructor|]. apply (mac_iff SHA_256 sha256 64 sha256_iff eq_refl), HM.
      - exists sha384, 128%nat. split; [constructor|]. apply (mac_iff SHA_384 sha384 128 sha384_iff eq_refl), HM.
      - exists sha512, 128%nat. split; [constructor|]. apply (mac_iff SHA_512 sha512 128 sha512_iff eq_refl), HM. }
    destruct X as (H & B & HA & HR). exists (hmac H B). split; [apply hs_method_spec; eauto|].
    apply (hmac_rfc H B b msg sig (hs_length _ _ _ HA)), HR.
Qed.
Print Assumptions C89_macs.
Theorem C89_shared_secrets : forall A alg b msg sig,
  genuine A alg (KBytes b) msg sig <-> exists V, In (alg, V) variant_of /\ FipsSpec.mac V b msg sig.
Proof.
  intros A alg b msg sig. split.
  - intros H. inversion H as [alg' H0 B b' msg' sig' HA HR| |]; subst. destruct HA.
    + exists SHA_256. split; [left; reflexivity|]. apply (mac_iff SHA_256 sha256 64 sha256_iff eq_refl), HR.
    + exists SHA_384. split; [right; left; reflexivity|]. apply (mac_iff SHA_384 sha384 128 sha384_iff eq_refl), HR.
    + exists SHA_512. split; [right; right; left; reflexivity|]. apply (mac_iff SHA_512 sha512 128 sha512_iff eq_refl), HR.
  - intros (V & HI & HM). destruct HI as [E|[E|[E|[]]]]; injection E as <- <-.
    + eapply gn_secret; [apply hs_256|]. apply (mac_iff SHA_256 sha256 64 sha256_iff eq_refl), HM.
    + eapply gn_secret; [apply hs_384|]. apply (mac_iff SHA_384 sha384 128 sha384_iff eq_refl), HM.
    + eapply gn_secret; [apply hs_512|]. apply (mac_iff SHA_512 sha512 128 sha512_iff eq_refl), HM.
Qed.
Print Assumptions C89_shared_secrets.

(* RFC 7636, appendix B; FIPS 180-4's first example; RFC 4231, test case 2; an ID token's at_hash. *)
Definition verifier_b := "dBjftJeZ4CVP-mB92K27uhbUJU1p1r_wW1gFWFOEjXk".
Example C89_example :
  derived "S256" "E9Melhoa2OwvFrEMTJguCHaoeK1t8URWbuGJSstw-cM" verifier_b /\
  ~ derived "S256" verifier_b verifier_b /\
  (exists h, sha SHA_256 "abc" h /\ hex h = "ba7816bf8f01cfea414140de5dae2223b00361a396177a9cb410ff61f20015ad") /\
  (exists h, FipsSpec.mac SHA_256 "Jefe" "what do ya want for nothing?" h /\
     hex h = "5bdcc146bf60754e6a042426089575c75a003f089d2739839dec58b964ec3843") /\
  (exists h, half_of SHA_256 "jHkWEdUXMU1BwAsC4vtUsZwnNvTIxEl0z9K3vx5KF0Y" h /\ rfc4648_std h = "77QmUPtjPfzWtF2AnpK9RQ==").
Proof.
  split; [right; split; [reflexivity|eexists; split; [apply sha256_iff; reflexivity|vm_compute; reflexivity]]|].
  split; [intros [[H _]|[_ (h & H & E)]]; [discriminate H|apply sha256_iff in H; subst h; vm_compute in E; discriminate E]|].
  split; [eexists; split; [apply sha256_iff; reflexivity|vm_compute; reflexivity]|].
  split; [|eexists; split; [eexists; split; [apply sha256_iff; reflexivity|reflexivity]|vm_compute; reflexivity]].
  eexists. split; [apply (mac_iff SHA_256 sha256 64 sha256_iff eq_refl); apply hmac_rfc; [intros s; rewrite sha256_length; lia|reflexivity]|].
  vm_compute. reflexivity.
Qed.
Example C89_exchanged_example :
  only_bundled demoJ te0 /\
  registered te0 (form_value (pkce_request "S256" (rfc4648_url (sha256 "verifier"))) "grant_type") (authorization_code demoJ) /\
  exec (token_handler demoJ te0 (pkce_request "S256" (rfc4648_url (sha256 "verifier")))) (run_of (answers1 "verifier") te0 (pkce_request "S256" (rfc4648_url (sha256 "verifier")))) (Done tt) /\
  In 200%Z (statuses (run_of (answers1 "verifier") te0 (pkce_request "S256" (rfc4648_url (sha256 "verifier"))))).
Proof. split; [apply demo_te_bundled|]. split; [apply (demo_registered FromHeader false)|]. split; [apply run_of_exec; vm_compute; reflexivity|]. vm_compute. auto. Qed.
