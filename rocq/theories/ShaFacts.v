(** * Digest lengths. *)
From Coq Require Import Lia.
From Verif Require Import GoStr Sha.

Lemma be_bytes_length n : forall x, length (be_bytes n x) = n.
Proof. induction n as [|n IH]; intros x; simpl; auto. rewrite app_length, IH. simpl. lia. Qed.

Lemma round_length p st kw : length st = 8%nat -> length (round p st kw) = 8%nat.
Proof.
  intros H. do 8 (destruct st as [|? st]; [discriminate|]). destruct st; [reflexivity|discriminate].
Qed.

Lemma rounds_length p l : forall st, length st = 8%nat -> length (fold_left (round p) l st) = 8%nat.
Proof. induction l as [|x l IH]; intros st H; cbn [fold_left]; auto. apply IH, round_length, H. Qed.

Lemma compress_length p st b : length st = 8%nat -> length (compress p st b) = 8%nat.
Proof.
  intros H. unfold compress. rewrite map_length, combine_length, rounds_length, H by auto. reflexivity.
Qed.

Lemma blocks_length p fuel : forall st l, length st = 8%nat -> length (blocks p fuel st l) = 8%nat.
Proof.
  induction fuel as [|n IH]; intros st l H; cbn [blocks]; auto.
  destruct l; auto. apply IH, compress_length, H.
Qed.

Lemma flat_map_bytes n l : length (flat_map (be_bytes n) l) = (length l * n)%nat.
Proof. induction l as [|x l IH]; simpl; auto. rewrite app_length, be_bytes_length, IH. lia. Qed.

Lemma length_of_list l : String.length (string_of_list_ascii l) = length l.
Proof. induction l as [|x l IH]; simpl; auto. Qed.

Lemma sha2_length p s : length (hinit p) = 8%nat -> String.length (sha2_hash p s) = (8 * wbytes p)%nat.
Proof.
  intros H. unfold sha2_hash. rewrite length_of_list, flat_map_bytes, blocks_length by auto. reflexivity.
Qed.

Lemma sha256_length s : String.length (sha256 s) = 32%nat.
Proof. unfold sha256. rewrite sha2_length; reflexivity. Qed.
Lemma sha512_length s : String.length (sha512 s) = 64%nat.
Proof. unfold sha512. rewrite sha2_length; reflexivity. Qed.

Lemma substring_length s : forall n m, (n + m <= String.length s)%nat ->
  String.length (substring n m s) = m.
Proof.
  induction s as [|a s IH]; intros n m H; simpl in *.
  - destruct n, m; simpl; lia.
  - destruct n; simpl.
    + destruct m; simpl; auto. rewrite IH; lia.
    + apply IH. lia.
Qed.

Lemma sha384_length s : String.length (sha384 s) = 48%nat.
Proof.
  unfold sha384. apply substring_length. rewrite sha2_length by reflexivity. simpl. lia.
Qed.
