(** * Properties of the utility packages: pkce, flow, scope, prompt.

    Every theorem is followed by the axioms it rests on and by a concrete case
    that meets its hypotheses. *)
From Coq Require Import Sorted.
From Verif Require Import GoStr Codec Sha Utils Core Spec TokenSpec UtilsFacts ShaFacts.

(** ** C12: PKCE verification is exactly RFC 7636's relation. *)

Theorem C12_pkce_exact : forall method challenge verifier,
  (exists v, find_verifier method = Some v /\ pkce_verify v challenge verifier = true)
  <-> rfc7636 method challenge verifier.
Proof. exact (fun m c v => pkce_spec m v c). Qed.
Print Assumptions C12_pkce_exact.

Theorem C12_pkce_other_methods : forall method,
  find_verifier method = None <-> method <> "plain" /\ method <> "S256".
Proof. exact find_verifier_none. Qed.
Print Assumptions C12_pkce_other_methods.

(* The example of RFC 7636, appendix B, with the model's own SHA-256. *)
Example C12_example :
  rfc7636 "S256" "E9Melhoa2OwvFrEMTJguCHaoeK1t8URWbuGJSstw-cM"
                 "dBjftJeZ4CVP-mB92K27uhbUJU1p1r_wW1gFWFOEjXk".
Proof. right. split; vm_compute; reflexivity. Qed.
Example C12_example_refused :
  ~ rfc7636 "S256" "dBjftJeZ4CVP-mB92K27uhbUJU1p1r_wW1gFWFOEjXk"
                   "dBjftJeZ4CVP-mB92K27uhbUJU1p1r_wW1gFWFOEjXk".
Proof. intros [[H _]|[_ H]]; vm_compute in H; discriminate. Qed.

(** ** C14: unpadded base64url is lossless and URL safe. *)

Theorem C14_no_unsafe_byte : forall s c,
  In c (list_ascii_of_string (b64url_nopad s)) -> c <> "="%char /\ c <> "+"%char /\ c <> "/"%char.
Proof. exact (fun s => proj1 (Forall_forall _ _) (b64url_nopad_safe s)). Qed.
Print Assumptions C14_no_unsafe_byte.

Theorem C14_length : forall s,
  String.length (b64url_nopad s) = ((4 * String.length s + 2) / 3)%nat.
Proof. exact b64url_nopad_length. Qed.
Print Assumptions C14_length.

Theorem C14_lossless : forall s t, b64url_nopad s = b64url_nopad t -> s = t.
Proof. exact b64url_nopad_inj. Qed.
Print Assumptions C14_lossless.

Theorem C14_is_rfc4648 : forall s, b64url_nopad s = rfc4648_url s.
Proof. exact b64url_nopad_rfc. Qed.
Print Assumptions C14_is_rfc4648.

(* S256Encode always yields 43 characters. *)
Theorem C14_s256_length : forall s, String.length (s256_encode s) = 43%nat.
Proof.
  exact (fun s => eq_trans (b64url_nopad_length (sha256 s))
                           (f_equal (fun n => ((4 * n + 2) / 3)%nat) (sha256_length s))).
Qed.
Print Assumptions C14_s256_length.

Example C14_example :
  b64url_nopad (String "251" (String "239" "a")) = "--9h" /\
  b64url_nopad (String "255" (String "224" "")) = "_-A".
Proof. split; vm_compute; reflexivity. Qed.

(** ** C40: response_type decides the flow independent of word order. *)

(* The flow of a set of response types, and when there is none. *)
Theorem C40_judge_exact : forall s l f, words_of s l ->
  (judge_response_type s = Some f <->
   NoDup l /\ incl l ["code"; "token"; "id_token"] /\
   (f_access f = true <-> In "token" l) /\
   (f_id f = true <-> In "id_token" l) /\
   f_type f = (if in_dec string_dec "code" l
               then if list_eq_dec string_dec l ["code"] then FAuthorizationCode else FHybrid
               else FImplicit)).
Proof. exact judge_spec. Qed.
Print Assumptions C40_judge_exact.

Theorem C40_order_irrelevant : forall s s' l l',
  words_of s l -> words_of s' l' -> Permutation l l' ->
  judge_response_type s = judge_response_type s'.
Proof. exact judge_order. Qed.
Print Assumptions C40_order_irrelevant.

Example C40_example :
  words_of "token code id_token" ["token"; "code"; "id_token"] /\
  judge_response_type "token code id_token" = Some (Flow FHybrid true true) /\
  words_of "code code" ["code"; "code"] /\ judge_response_type "code code" = None /\
  judge_response_type "" = None.
Proof. repeat split; try reflexivity; try discriminate; repeat constructor; simpl; intuition discriminate. Qed.

(** ** C47: scope strings behave as lists of words. *)

Theorem C47_words : forall s, exists l, words_of s l /\ forall l', words_of s l' -> l' = l.
Proof. exact words_exist_unique. Qed.
Print Assumptions C47_words.

Theorem C47_include : forall s l t, words_of s l -> (scope_include s t = true <-> In t l).
Proof. exact scope_include_spec. Qed.
Print Assumptions C47_include.

Theorem C47_include_all : forall s l want, words_of s l ->
  (forall m, scope_include_all s want = (true, m) <-> m = "" /\ incl want l) /\
  (forall m, scope_include_all s want = (false, m) <->
     exists pre post, (want = pre ++ m :: post)%list /\ incl pre l /\ ~ In m l).
Proof. exact scope_include_all_spec. Qed.
Print Assumptions C47_include_all.

Theorem C47_remove : forall s l t, words_of s l ->
  let keep := filter (fun w => negb (String.eqb w t)) l in
  (keep = [] -> scope_remove s t = "") /\ (keep <> [] -> words_of (scope_remove s t) keep).
Proof. exact scope_remove_spec. Qed.
Print Assumptions C47_remove.

Theorem C47_same : forall a b la lb, words_of a la -> words_of b lb ->
  (scope_same a b = true <-> Permutation la lb).
Proof. exact scope_same_spec. Qed.
Print Assumptions C47_same.

Theorem C47_sort : forall s l, words_of s l ->
  exists l', words_of (scope_sort s) l' /\ Permutation l l' /\ StronglySorted bytes_le l'.
Proof. exact scope_sort_spec. Qed.
Print Assumptions C47_sort.

Theorem C47_fixed_words : forall s l, words_of s l ->
  (include_openid s = true <-> In "openid" l) /\
  (include_offline s = true <-> In "offline_access" l) /\
  remove_openid s = scope_remove s "openid" /\ remove_offline s = scope_remove s "offline_access".
Proof.
  exact (fun s l W => conj (scope_include_spec s l "openid" W)
    (conj (scope_include_spec s l "offline_access" W) (conj eq_refl eq_refl))).
Qed.
Print Assumptions C47_fixed_words.

Example C47_example :
  words_of "email  openid email" ["email"; ""; "openid"; "email"] /\
  scope_remove "email  openid email" "email" = " openid" /\
  scope_include "email  openid email" "open" = false /\
  scope_include_all "email openid" ["openid"; "phone"; "x"] = (false, "phone") /\
  scope_same "b a b" "b b a" = true /\ scope_same "a b" "a b b" = false /\
  scope_sort "openid b a" = "a b openid".
Proof. repeat split; try reflexivity; try discriminate; repeat constructor; simpl; intuition discriminate. Qed.

(** ** C48: prompt validation is exact. *)

Theorem C48_prompt_exact : forall s l, words_of s l ->
  (prompt_validate s = true <->
   Forall (fun w => In w ["none"; "login"; "consent"; "select_account"]) l /\
   (In "none" l -> Forall (fun w => w = "none") l)).
Proof. exact prompt_validate_spec. Qed.
Print Assumptions C48_prompt_exact.

Theorem C48_prompt_include : forall s l, words_of s l ->
  (include_none s = true <-> In "none" l) /\ (include_login s = true <-> In "login" l) /\
  (include_consent s = true <-> In "consent" l).
Proof.
  exact (fun s l W => conj (scope_include_spec s l "none" W)
    (conj (scope_include_spec s l "login" W) (scope_include_spec s l "consent" W))).
Qed.
Print Assumptions C48_prompt_include.

Example C48_example :
  prompt_validate "login consent" = true /\ prompt_validate "none login" = false /\
  prompt_validate "login nonee" = false /\ prompt_validate "none none" = true /\
  prompt_validate "" = false.
Proof. repeat split. Qed.

(** ** The constants of the hash functions: FIPS 180-4, 4.2.2, 4.2.3, 5.3.3 and
    5.3.5: the first bits of the fractional parts of the cube roots (the round
    constants) and of the square roots (the initial state) of the first primes. *)
Definition is_prime (n : N) : bool := forallb (fun d => negb (n mod (2 + N.of_nat d) =? 0)%N) (seq 0 (N.to_nat (n - 2))).
Definition primes_below (n : nat) : list N := filter is_prime (map N.of_nat (seq 2 (n - 2))).
(* [x] is the first [bits] bits of the fractional part of the [e]-th root of [p] *)
Definition root_bits (e bits p x : N) : Prop :=
  (x < 2 ^ bits)%N /\ exists whole, ((whole * 2 ^ bits + x) ^ e <= p * 2 ^ (e * bits) < (whole * 2 ^ bits + x + 1) ^ e)%N.
Definition root_bitsb (e bits p x : N) : bool :=
  ((x <? 2 ^ bits) && existsb (fun w => ((w * 2 ^ bits + x) ^ e <=? p * 2 ^ (e * bits)) && (p * 2 ^ (e * bits) <? (w * 2 ^ bits + x + 1) ^ e))
     (map N.of_nat (seq 0 25)))%N%bool.
Lemma root_bits_dec e bits p x : root_bitsb e bits p x = true -> root_bits e bits p x.
Proof.
  unfold root_bitsb, root_bits. intros H. apply andb_true_iff in H. destruct H as [H1 H2]. split; [apply N.ltb_lt; exact H1|].
  apply existsb_exists in H2. destruct H2 as (w & _ & H2). apply andb_true_iff in H2. destruct H2 as [H2 H3]. exists w.
  split; [apply N.leb_le; exact H2|apply N.ltb_lt; exact H3].
Qed.
Lemma roots_dec e bits ps xs : length ps = length xs -> forallb (fun q => root_bitsb e bits (fst q) (snd q)) (combine ps xs) = true ->
  Forall2 (root_bits e bits) ps xs.
Proof.
  revert xs. induction ps as [|p ps IH]; intros [|x xs] HL H; try discriminate; constructor; simpl in H; apply andb_true_iff in H.
  - apply root_bits_dec, H.
  - apply IH; [injection HL; auto|apply H].
Qed.
Theorem C12_hash_constants :
  (length (primes_below 312) = 64 /\ length (primes_below 410) = 80 /\ length (primes_below 20) = 8)%nat /\
  Forall2 (root_bits 3 32) (primes_below 312) (kconst SHA256p) /\
  Forall2 (root_bits 2 32) (primes_below 20) (hinit SHA256p) /\
  Forall2 (root_bits 3 64) (primes_below 410) (kconst SHA512p) /\
  Forall2 (root_bits 2 64) (primes_below 20) (hinit SHA512p) /\
  kconst SHA384p = kconst SHA512p /\
  Forall2 (root_bits 2 64) (skipn 8 (primes_below 54)) (hinit SHA384p).
Proof.
  repeat split; lazymatch goal with
  | |- Forall2 _ _ _ => apply roots_dec; vm_compute; reflexivity
  | |- _ => vm_compute; reflexivity
  end.
Qed.
Print Assumptions C12_hash_constants.

(** ** Test vectors for the hash functions (FIPS 180-4 examples).  These are
    tests of the model's SHA-2, not theorems. *)
Definition hex (s : string) : string :=
  let d n := match String.get (N.to_nat n) "0123456789abcdef" with Some c => c | None => "?"%char end in
  string_of_list_ascii (flat_map (fun a => [d (N_of_ascii a / 16)%N; d (N_of_ascii a mod 16)%N])
                                 (list_ascii_of_string s)).
Example sha256_vector :
  hex (sha256 "abc") = "ba7816bf8f01cfea414140de5dae2223b00361a396177a9cb410ff61f20015ad" /\
  hex (sha256 "") = "e3b0c44298fc1c149afbf4c8996fb92427ae41e4649b934ca495991b7852b855" /\
  hex (sha256 "abcdbcdecdefdefgefghfghighijhijkijkljklmklmnlmnomnopnopq")
  = "248d6a61d20638b8e5c026930c3e6039a33ce45964ff2167f6ecedd419db06c1".
Proof. repeat split; vm_compute; reflexivity. Qed.
Example sha512_vector :
  hex (sha512 "abc") = "ddaf35a193617abacc417349ae20413112e6fa4e89a97ea20a9eeee64b55d39a2192992a274fc1a836ba3c23a3feebbd454d4423643ce80e2a9ac94fa54ca49f" /\
  hex (sha384 "abc") = "cb00753f45a35e8bb5a03d699ac65007272c32ab0eded1631a8b605a43ff5bed8086072ba1e7cc2358baeca134c825a7".
Proof. split; vm_compute; reflexivity. Qed.
