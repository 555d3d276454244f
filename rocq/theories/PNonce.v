(** Random nonces are equally likely (C64) *)
From Coq Require Import Lia ZArith ZifyN ZifyNat ZifyBool.
From Verif Require Import Base Params SpecObject PfParams.
From Verif Require Import PfNonce.

Local Open Scope N_scope.

(** C64: for any two alphanumeric texts of the same length there is a way to exchange random words for random words, back and forth, that
    exchanges the draws of the one text with the draws of the other: with uniformly random words both are equally likely, also within any
    number of words. *)
Theorem c64_likely : forall (n : nat) (s t : string),
  String.length s = n -> String.length t = n ->
  Forall alphanumeric (list_ascii_of_string s) -> Forall alphanumeric (list_ascii_of_string t) ->
  exists exchange : list N -> list N,
    (forall words, exchange (exchange words) = words)
    /\ (forall words, length (exchange words) = length words)
    /\ (forall words, Forall (fun w => w < 2 ^ 32) words -> Forall (fun w => w < 2 ^ 32) (exchange words))
    /\ (forall words, sample_string words n = Some s <-> sample_string (exchange words) n = Some t).
Proof. exact c64_likely_pf. Qed.
Print Assumptions c64_likely.

Example c64_likely_witness :
  Forall alphanumeric (list_ascii_of_string "AB9") /\ Forall alphanumeric (list_ascii_of_string "zz0")
  /\ sample_string [0; 4294967295; 67108864; 4093640704] 3 = Some "AB9".
Proof. exact c64_likely_ex. Qed.
