(** Specification vocabulary: random words and version 4 UUIDs (RFC 9562, 5.4). *)
From Verif Require Import Base Session.
Local Open Scope N_scope.

(** 128 bits. *)
Definition word (w : N) : Prop := w < 2 ^ 128.
(** Version 4 in bits 48 to 51 and variant 10 in bits 64 and 65, counted from the most significant one. *)
Definition version4 (u : uuid) : Prop := u < 2 ^ 128 /\ (u / 2 ^ 76) mod 16 = 4 /\ (u / 2 ^ 62) mod 4 = 2.
(** The number of elements. *)
Definition count {A} (l : list A) : N := N.of_nat (length l).
