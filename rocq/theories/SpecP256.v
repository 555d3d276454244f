(** Specification of multiples of a point on the curve y^2 = x^3 - 3x + b over the integers modulo p (P-256), by the chord
    and tangent rule. *)
From Verif Require Import Base Json P256 SpecRequest.
Open Scope Z_scope.

Definition modulus : Z := Z.of_N p256_p.
Definition eqm (a b : Z) : Prop := (modulus | a - b).
Definition point : Type := (Z * Z)%type.
Definition base_point : point := (Z.of_N (fst p256_g), Z.of_N (snd p256_g)).

(** The line through [a] and [b], the tangent if they are the same, has slope [l] (and is not vertical). *)
Definition has_slope (a b : point) (l : Z) : Prop :=
  (a = b /\ ~ eqm (2 * snd a) 0 /\ eqm (l * (2 * snd a)) (3 * (fst a * fst a) - 3))
  \/ (~ eqm (fst a) (fst b) /\ eqm (l * (fst b - fst a)) (snd b - snd a)).
(** [c] is their sum. *)
Definition adds (a b c : point) : Prop :=
  exists l, has_slope a b l
    /\ eqm (fst c) (l * l - fst a - fst b) /\ eqm (snd c) (l * (fst a - fst c) - snd a)
    /\ 0 <= fst c < modulus /\ 0 <= snd c < modulus.
(** [k] times the base point, bracketed in some way. *)
Inductive multiple : Z -> point -> Prop :=
| multiple_one : multiple 1 base_point
| multiple_sum j k a b c : multiple j a -> multiple k b -> adds a b c -> multiple (j + k) c.

Definition on_curve (a : point) : Prop :=
  eqm (snd a * snd a) (fst a * fst a * fst a - 3 * fst a + Z.of_N p256_b).
