(** * Vocabulary: SHA-2 as FIPS 180-4 defines it, over bits.

    These definitions model no code of /repo and share nothing with Sha.v.  Words and
    messages are lists of bits, most significant bit first. *)
From Coq Require Import List NArith Bool Arith Ascii.
From Coq Require String.
Import ListNotations.

Definition word := list bool.

(** The number a bit string stands for, and the [w]-bit string of a number (mod 2^w). *)
Definition value (x : word) : N := fold_left (fun n b => 2 * n + (if b : bool then 1 else 0))%N x 0%N.
Fixpoint bits (w : nat) (n : N) : word :=
  match w with O => [] | S w => bits w (n / 2)%N ++ [N.odd n] end.

(** 2.2.2, 3.2: operations on words. *)
Definition rotr (n : nat) (x : word) : word := skipn (length x - n) x ++ firstn (length x - n) x.
Definition shr (n : nat) (x : word) : word := repeat false n ++ firstn (length x - n) x.
Definition xor (x y : word) : word := map (fun p => xorb (fst p) (snd p)) (combine x y).
Definition conj (x y : word) : word := map (fun p => andb (fst p) (snd p)) (combine x y).
Definition compl (x : word) : word := map negb x.
Definition add (w : nat) (l : list word) : word := bits w (fold_left N.add (map value l) 0)%N.

(** 4.1.2, 4.1.3 *)
Definition ch (x y z : word) : word := xor (conj x y) (conj (compl x) z).
Definition maj (x y z : word) : word := xor (xor (conj x y) (conj x z)) (conj y z).

(** A hash function of the family: word size, number of rounds, the rotations (and the
    shift, last) of the four sigma functions, the primes whose roots give the initial
    hash value (by number, from 0), and the length of the digest. *)
Record variant := Variant {
  v_w : nat; v_rounds : nat;
  v_Sigma0 : nat * nat * nat; v_Sigma1 : nat * nat * nat;
  v_sigma0 : nat * nat * nat; v_sigma1 : nat * nat * nat;
  v_first : nat; v_digest : nat }.
Definition SHA_256 : variant := Variant 32 64 (2, 13, 22) (6, 11, 25) (7, 18, 3) (17, 19, 10) 0 256.
Definition SHA_384 : variant := Variant 64 80 (28, 34, 39) (14, 18, 41) (1, 8, 7) (19, 61, 6) 8 384.
Definition SHA_512 : variant := Variant 64 80 (28, 34, 39) (14, 18, 41) (1, 8, 7) (19, 61, 6) 0 512.

Definition Sigma (r : nat * nat * nat) (x : word) : word := let '(a, b, c) := r in xor (xor (rotr a x) (rotr b x)) (rotr c x).
Definition sigma (r : nat * nat * nat) (x : word) : word := let '(a, b, c) := r in xor (xor (rotr a x) (rotr b x)) (shr c x).

(** 4.2.2, 4.2.3, 5.3: constants are the first bits of the fractional parts of the cube
    roots, initial hash values of the square roots, of the first primes. *)
Definition prime (p : N) : Prop := (1 < p)%N /\ forall d, (1 < d < p)%N -> (p mod d <> 0)%N.
Definition nth_prime (t : nat) (p : N) : Prop :=
  prime p /\ exists l, NoDup l /\ length l = t /\ forall q, In q l <-> prime q /\ (q < p)%N.
(** [q] is the integral part of [2^w] times the [n]-th root of [p]. *)
Definition root (n w p q : N) : Prop := (q ^ n <= p * 2 ^ (n * w) < (q + 1) ^ n)%N.
Definition fraction (n : N) (w t : nat) (k : word) : Prop :=
  exists p q, nth_prime t p /\ root n (N.of_nat w) p q /\ k = bits w q.

Section Hash.
Context (V : variant).
Let w := v_w V.

(** 5.1: a bit "1", [k] zeros, as few as possible, and the length of the message. *)
Definition padded (m out : list bool) : Prop :=
  exists k, out = (m ++ [true] ++ repeat false k ++ bits (2 * w) (N.of_nat (length m))) /\
    (length out mod (16 * w) = 0)%nat /\ k < 16 * w.

(** 5.2: blocks of sixteen words. *)
Definition parsed (out : list bool) (blocks : list (list word)) : Prop :=
  out = concat (map (@concat bool) blocks) /\
  Forall (fun M => length M = 16 /\ Forall (fun x => length x = w) M) blocks.

(** 6.2.2, step 1: the message schedule. *)
Definition schedule (M W : list word) : Prop :=
  length W = v_rounds V /\
  (forall t, t < 16 -> nth t W [] = nth t M []) /\
  (forall t, 16 <= t < v_rounds V ->
     nth t W [] = add w [sigma (v_sigma1 V) (nth (t - 2) W []); nth (t - 7) W [];
                         sigma (v_sigma0 V) (nth (t - 15) W []); nth (t - 16) W []]).

(** Steps 2 and 3: the working variables after [t] rounds. *)
Definition vars : Type := word * word * word * word * word * word * word * word.
Definition one_round (K W : word) (v : vars) : vars :=
  let '(a, b, c, d, e, f, g, h) := v in
  let T1 := add w [h; Sigma (v_Sigma1 V) e; ch e f g; K; W] in
  let T2 := add w [Sigma (v_Sigma0 V) a; maj a b c] in
  (add w [T1; T2], a, b, c, add w [d; T1], e, f, g).
Fixpoint after (K W : list word) (H : vars) (t : nat) : vars :=
  match t with O => H | S t => one_round (nth t K []) (nth t W []) (after K W H t) end.

(** Step 4: the next hash value. *)
Definition sum (v u : vars) : vars :=
  let '(a, b, c, d, e, f, g, h) := v in let '(a', b', c', d', e', f', g', h') := u in
  (add w [a; a'], add w [b; b'], add w [c; c'], add w [d; d'], add w [e; e'], add w [f; f'], add w [g; g'], add w [h; h']).
Inductive hashed (K : list word) : vars -> list (list word) -> vars -> Prop :=
| ha_nil H : hashed K H [] H
| ha_cons H M W Ms H' : schedule M W -> hashed K (sum (after K W H (v_rounds V)) H) Ms H' -> hashed K H (M :: Ms) H'.

Definition concatenated (v : vars) : list bool :=
  let '(a, b, c, d, e, f, g, h) := v in a ++ b ++ c ++ d ++ e ++ f ++ g ++ h.

(** The digest of a message. *)
Definition digest (m d : list bool) : Prop :=
  exists K a b c e f g h i out blocks H,
    length K = v_rounds V /\ (forall t, t < v_rounds V -> fraction 3 w t (nth t K [])) /\
    (forall t, t < 8 -> fraction 2 w (v_first V + t) (nth t [a; b; c; e; f; g; h; i] [])) /\
    padded m out /\ parsed out blocks /\ hashed K (a, b, c, e, f, g, h, i) blocks H /\
    d = firstn (v_digest V) (concatenated H).
End Hash.

(** ** Byte strings *)
Definition octets (s : String.string) : list bool := flat_map (fun a => bits 8 (N_of_ascii a)) (String.list_ascii_of_string s).
(** [h] is the digest of [s]. *)
Definition sha (V : variant) (s h : String.string) : Prop := digest V (octets s) (octets h).

(** RFC 2104, 2, for a function of the family: its block has sixteen words. *)
Definition combined (n : N) (s : String.string) : String.string :=
  String.string_of_list_ascii (map (fun a => ascii_of_N (N.lxor (N_of_ascii a) n)) (String.list_ascii_of_string s)).
Definition mac (V : variant) (key text out : String.string) : Prop :=
  exists k zeros inner,
    (8 * String.length key <= 16 * v_w V /\ k = key \/ 16 * v_w V < 8 * String.length key /\ sha V key k) /\
    Forall (fun a => N_of_ascii a = 0%N) (String.list_ascii_of_string zeros) /\
    8 * String.length (String.append k zeros) = 16 * v_w V /\
    sha V (String.append (combined 0x36 (String.append k zeros)) text) inner /\
    sha V (String.append (combined 0x5c (String.append k zeros)) inner) out.
