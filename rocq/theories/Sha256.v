(** SHA-256 (FIPS 180-4), as provided by crate sha2 and used in
    /repo/src/core/iso_18013_7/mod.rs:61,181,468,
    /repo/src/core/authorization_request/verification/x509_hash.rs:95-105 and
    /repo/src/verifier/client.rs:137-154.  Concrete definition; checked against published vectors
    in [Sha256Facts]. *)
From Verif Require Import Base.

Local Open Scope N_scope.

Definition sha_k : list N :=
  [1116352408; 1899447441; 3049323471; 3921009573; 961987163; 1508970993; 2453635748; 2870763221;
   3624381080; 310598401; 607225278; 1426881987; 1925078388; 2162078206; 2614888103; 3248222580;
   3835390401; 4022224774; 264347078; 604807628; 770255983; 1249150122; 1555081692; 1996064986;
   2554220882; 2821834349; 2952996808; 3210313671; 3336571891; 3584528711; 113926993; 338241895;
   666307205; 773529912; 1294757372; 1396182291; 1695183700; 1986661051; 2177026350; 2456956037;
   2730485921; 2820302411; 3259730800; 3345764771; 3516065817; 3600352804; 4094571909; 275423344;
   430227734; 506948616; 659060556; 883997877; 958139571; 1322822218; 1537002063; 1747873779;
   1955562222; 2024104815; 2227730452; 2361852424; 2428436474; 2756734187; 3204031479; 3329325298].
Definition sha_h0 : list N :=
  [1779033703; 3144134277; 1013904242; 2773480762; 1359893119; 2600822924; 528734635; 1541459225].

Definition w32 (x : N) : N := x mod 4294967296.
Definition rotr (n x : N) : N := N.lor (N.shiftr x n) (w32 (N.shiftl x (32 - n))).
Definition xor3 (a b c : N) : N := N.lxor a (N.lxor b c).
Definition bsig0 x := xor3 (rotr 2 x) (rotr 13 x) (rotr 22 x).
Definition bsig1 x := xor3 (rotr 6 x) (rotr 11 x) (rotr 25 x).
Definition ssig0 x := xor3 (rotr 7 x) (rotr 18 x) (N.shiftr x 3).
Definition ssig1 x := xor3 (rotr 17 x) (rotr 19 x) (N.shiftr x 10).
Definition sha_ch x y z := N.lxor (N.land x y) (N.land (N.lxor x 4294967295) z).
Definition sha_maj x y z := xor3 (N.land x y) (N.land x z) (N.land y z).

(** One round: working variables [a..h], sliding window of the next 16 schedule words. *)
Definition sha_round (st : list N * list N) (k : N) : list N * list N :=
  match st with
  | ([a; b; c; d; e; f; g; h], w0 :: w1 :: ws) =>
      let t1 := h + bsig1 e + sha_ch e f g + k + w0 in
      let t2 := bsig0 a + sha_maj a b c in
      let wn := w32 (ssig1 (nth 12 ws 0) + nth 7 ws 0 + ssig0 w1 + w0) in
      ([w32 (t1 + t2); a; b; c; w32 (d + t1); e; f; g], (w1 :: ws) ++ [wn])
  | _ => st
  end.

Definition sha_block (h : list N) (w : list N) : list N :=
  map (fun p => w32 (fst p + snd p)) (combine h (fst (fold_left sha_round sha_k (h, w)))).

Definition word4 (a b c d : N) : N := ((a * 256 + b) * 256 + c) * 256 + d.
Fixpoint words (l : list N) : list N :=
  match l with
  | a :: b :: c :: d :: r => word4 a b c d :: words r
  | _ => []
  end.

Fixpoint sha_blocks (h : list N) (ws : list N) (n : nat) : list N :=
  match n with
  | O => h
  | S n' => sha_blocks (sha_block h (firstn 16 ws)) (skipn 16 ws) n'
  end.

Fixpoint be_bytes (n : nat) (x : N) : list N :=
  match n with O => [] | S n' => be_bytes n' (x / 256) ++ [x mod 256] end.

Definition sha_pad (m : list N) : list N :=
  let len := N.of_nat (length m) in
  m ++ [128] ++ repeat 0 (N.to_nat ((119 - len mod 64) mod 64)) ++ be_bytes 8 (8 * len).

Definition bytes_of (s : string) : list N := map byte (list_ascii_of_string s).
Definition of_bytes (l : list N) : string := string_of_list_ascii (map chr l).

Definition sha256 (s : string) : string :=
  let ws := words (sha_pad (bytes_of s)) in
  of_bytes (flat_map (be_bytes 4) (sha_blocks sha_h0 ws (Nat.div (length ws) 16))).

