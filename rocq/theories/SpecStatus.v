(** Specification vocabulary for the JSON form of statuses. *)
From Verif Require Import Base Json JsonText Session.

(** The JSON, as written, gives the one field of a variant: an object that has it once, or an array of it alone. *)
Definition gives_field (k : string) (j v : json) : Prop :=
  (exists before after_, j = JObj (before ++ (k, v) :: after_) /\ ~ In k (map fst (before ++ after_))) \/ j = JArr [v].
Inductive tells_outcome : json -> outcome -> Prop :=
| tells_error : forall j cause, gives_field "cause" j (JStr cause) -> tells_outcome (JObj [("Error", j)]) (OError cause)
| tells_failure : forall j reason, gives_field "reason" j (JStr reason) -> tells_outcome (JObj [("Failure", j)]) (OFailure reason)
| tells_success : forall j info, gives_field "info" j info -> tells_outcome (JObj [("Success", j)]) (OSuccess (normalize info)).
Definition plain_name (st : status) (n : string) : Prop :=
  st = SentRequestByReference /\ n = "SentRequestByReference" \/ st = SentRequest /\ n = "SentRequest"
  \/ st = ReceivedResponse /\ n = "ReceivedResponse".
Inductive tells_status : json -> status -> Prop :=
| tells_plain : forall st n, plain_name st n -> tells_status (JStr n) st
| tells_plain_null : forall st n, plain_name st n -> tells_status (JObj [(n, JNull)]) st
| tells_complete : forall j o, tells_outcome j o -> tells_status (JObj [("Complete", j)]) (Complete o).

(** Statuses whose texts are Rust strings and whose information is a JSON value. *)
Definition proper (st : status) : Prop :=
  match st with
  | Complete (OError s) | Complete (OFailure s) => Utf8.utf8_valid s = true
  | Complete (OSuccess info) => jwf info = true
  | _ => True
  end.
(** The nesting depth of the information of a status. *)
Definition info_depth (st : status) : nat := match st with Complete (OSuccess info) => jdepth info | _ => 0 end.
