(** Specification vocabulary: a party that sends its requests one after the other, in the company of others. *)
From Verif Require Import Base Json Url Request Dcql Response Session Server ExVerifier SpecGuess.

(** It sends the next request when the one before is answered, and waits for answers; the lock is never held when it is its turn. *)
Definition patient (script : list hreq) : strategy := fun _ p =>
  match pt_tasks p with
  | [] => match nth_error script (length (pt_sent p)) with Some h => Send h | None => Wait end
  | _ => Proceed 0 false
  end.
(** How many turns the first party has. *)
Definition own_turns (turns : list bool) : nat := length (filter (fun t => t) turns).
