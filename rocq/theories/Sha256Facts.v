(** SHA-256: length of the digest, and published test vectors (FIPS 180-4). *)
From Coq Require Import Lia.
From Verif Require Import Base BaseFacts Sha256.

Lemma be_bytes_len n : forall x, length (be_bytes n x) = n.
Proof. induction n; intros x; cbn [be_bytes]; [reflexivity|]. rewrite app_length, IHn. cbn. lia. Qed.

Lemma sha_round_len st k : length (fst st) = 8 -> length (fst (sha_round st k)) = 8.
Proof.
  destruct st as [l w]. intros H. cbn [fst] in H.
  do 9 (destruct l as [|? l]; try (cbn in H; discriminate)).
  unfold sha_round. destruct w as [|w0 [|w1 ws]]; reflexivity.
Qed.
Lemma sha_block_len h w : length h = 8 -> length (sha_block h w) = 8.
Proof.
  intros H. unfold sha_block. rewrite map_length, combine_length.
  assert (G : forall ks st, length (fst st) = 8 -> length (fst (fold_left sha_round ks st)) = 8).
  { induction ks; intros st Hs; cbn [fold_left]; [exact Hs|]. apply IHks, sha_round_len, Hs. }
  rewrite G; [rewrite H; reflexivity|exact H].
Qed.
Lemma sha_blocks_len n : forall h ws, length h = 8 -> length (sha_blocks h ws n) = 8.
Proof. induction n; intros h ws H; cbn [sha_blocks]; [exact H|]. apply IHn, sha_block_len, H. Qed.

Lemma of_bytes_len l : String.length (of_bytes l) = length l.
Proof. unfold of_bytes. induction l; cbn; [reflexivity|]. now rewrite IHl. Qed.
Lemma sha256_len s : String.length (sha256 s) = 32.
Proof.
  unfold sha256. rewrite of_bytes_len.
  match goal with |- context [sha_blocks ?h ?w ?n] => pose proof (sha_blocks_len n h w eq_refl) as H end.
  revert H. generalize (sha_blocks sha_h0 (words (sha_pad (bytes_of s))) (length (words (sha_pad (bytes_of s))) / 16)).
  intros l. do 9 (destruct l as [|? l]; try (cbn [length]; discriminate)). intros _.
  cbn [flat_map]. rewrite !app_length, !be_bytes_len. reflexivity.
Qed.

Example sha256_empty : sha256 "" = of_bytes
  [227; 176; 196; 66; 152; 252; 28; 20; 154; 251; 244; 200; 153; 111; 185; 36; 39; 174; 65; 228; 100; 155; 147; 76;
   164; 149; 153; 27; 120; 82; 184; 85]%N.
Proof. vm_compute. reflexivity. Qed.
Example sha256_abc : sha256 "abc" = of_bytes
  [186; 120; 22; 191; 143; 1; 207; 234; 65; 65; 64; 222; 93; 174; 34; 35; 176; 3; 97; 163; 150; 23; 122; 156;
   180; 16; 255; 97; 242; 0; 21; 173]%N.
Proof. vm_compute. reflexivity. Qed.
Example sha256_two_blocks : sha256 "abcdbcdecdefdefgefghfghighijhijkijkljklmklmnlmnomnopnopq" = of_bytes
  [36; 141; 106; 97; 210; 6; 56; 184; 229; 192; 38; 147; 12; 62; 96; 57; 163; 60; 228; 89; 100; 255; 33; 103;
   246; 236; 237; 212; 25; 219; 6; 193]%N.
Proof. vm_compute. reflexivity. Qed.
