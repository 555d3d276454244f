(** SHA-256 as FIPS 180-4 describes it: words are numbers below 2^32, functions on words are given bit by bit, the
    constants by the roots of the first primes, the schedule and the rounds by their recurrences. *)
From Verif Require Import Base.
Local Open Scope N_scope.

(** The word with given bits (bit 0 is the least significant). *)
Fixpoint from_bits (n : nat) (f : nat -> bool) : N :=
  match n with O => 0 | S n => 2 * from_bits n (fun i => f (S i)) + N.b2n (f O) end.
Definition bit (x : N) (i : nat) : bool := N.testbit x (N.of_nat i).
Definition ROTR (n : nat) (x : N) : N := from_bits 32 (fun i => bit x ((i + n) mod 32)).
Definition SHR (n : nat) (x : N) : N := from_bits 32 (fun i => bit x (i + n)).
Definition XOR (x y z : N) : N := from_bits 32 (fun i => xorb (bit x i) (xorb (bit y i) (bit z i))).
Definition Ch (x y z : N) : N := from_bits 32 (fun i => if bit x i then bit y i else bit z i).
Definition Maj (x y z : N) : N :=
  from_bits 32 (fun i => if bit x i then bit y i || bit z i else bit y i && bit z i)%bool.
Definition SUM0 (x : N) : N := XOR (ROTR 2 x) (ROTR 13 x) (ROTR 22 x).
Definition SUM1 (x : N) : N := XOR (ROTR 6 x) (ROTR 11 x) (ROTR 25 x).
Definition sig0 (x : N) : N := XOR (ROTR 7 x) (ROTR 18 x) (SHR 3 x).
Definition sig1 (x : N) : N := XOR (ROTR 17 x) (ROTR 19 x) (SHR 10 x).

(** The first [n] primes, in order. *)
Definition prime (p : N) : Prop := 1 < p /\ forall d, N.divide d p -> d = 1 \/ d = p.
Definition first_primes (n : nat) (ps : list N) : Prop :=
  length ps = n
  /\ (forall i j, (i < j < n)%nat -> nth i ps 0 < nth j ps 0)
  /\ (forall p, In p ps -> prime p)
  /\ (forall p q, prime q -> In p ps -> q <= p -> In q ps).
(** The first 32 bits of the fractional part of the square, cube root of [p]. *)
Definition square_root_bits (p k : N) : Prop := exists r, r * r <= p * 2 ^ 64 < (r + 1) * (r + 1) /\ k = r mod 2 ^ 32.
Definition cube_root_bits (p k : N) : Prop := exists r, r * r * r <= p * 2 ^ 96 < (r + 1) * (r + 1) * (r + 1) /\ k = r mod 2 ^ 32.
Definition round_constants (ks : list N) : Prop := exists ps, first_primes 64 ps /\ Forall2 cube_root_bits ps ks.
Definition initial_hash (hs : list N) : Prop := exists ps, first_primes 8 ps /\ Forall2 square_root_bits ps hs.

(** Bytes, and the big-endian words they form. *)
Definition word_at (p : list N) (j : nat) : N :=
  nth (4 * j) p 0 * 2 ^ 24 + nth (4 * j + 1) p 0 * 2 ^ 16 + nth (4 * j + 2) p 0 * 2 ^ 8 + nth (4 * j + 3) p 0.
Definition byte_list (p : list N) : Prop := forall b, In b p -> b < 256.
(** One bit, the least number of zeros that fills up the last block of 64 bytes, and the length in bits in 64 bits. *)
Definition padded (m p : list N) : Prop :=
  exists zeros len, p = m ++ 128 :: repeat 0 zeros ++ len
    /\ (zeros < 64)%nat /\ (length p mod 64 = 0)%nat
    /\ length len = 8%nat /\ byte_list len /\ word_at len 0 * 2 ^ 32 + word_at len 1 = 8 * N.of_nat (length m).

(** The eight working variables. *)
Definition vars : Type := N * N * N * N * N * N * N * N.
Definition round (k w : N) (v : vars) : vars :=
  let '(a, b, c, d, e, f, g, h) := v in
  let t1 := h + SUM1 e + Ch e f g + k + w in
  let t2 := SUM0 a + Maj a b c in
  ((t1 + t2) mod 2 ^ 32, a, b, c, (d + t1) mod 2 ^ 32, e, f, g).
Definition schedule (block w : nat -> N) : Prop :=
  (forall t, (t < 16)%nat -> w t = block t)
  /\ (forall t, (16 <= t < 64)%nat -> w t = (sig1 (w (t - 2)%nat) + w (t - 7)%nat + sig0 (w (t - 15)%nat) + w (t - 16)%nat) mod 2 ^ 32).
Definition vars_list (v : vars) : list N := let '(a, b, c, d, e, f, g, h) := v in [a; b; c; d; e; f; g; h].
(** From one hash value to the next. *)
Definition compressed (ks : list N) (block : nat -> N) (v v' : vars) : Prop :=
  exists (w : nat -> N) (s : nat -> vars),
    schedule block w /\ s O = v /\ (forall t, (t < 64)%nat -> s (S t) = round (nth t ks 0) (w t) (s t))
    /\ Forall2 (fun x '(y, z) => x = (y + z) mod 2 ^ 32) (vars_list v') (combine (vars_list v) (vars_list (s 64%nat))).

(** [d] is the digest of the bytes [m]. *)
Definition digest (m d : list N) : Prop :=
  exists ks p (h : nat -> vars),
    round_constants ks /\ initial_hash (vars_list (h O)) /\ padded m p
    /\ (forall i, (64 * i < length p)%nat -> compressed ks (fun t => word_at p (16 * i + t)) (h i) (h (S i)))
    /\ length d = 32%nat /\ byte_list d
    /\ forall j, (j < 8)%nat -> word_at d j = nth j (vars_list (h (length p / 64)%nat)) 0.
