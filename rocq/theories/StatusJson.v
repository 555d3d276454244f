(** The JSON form of statuses: the derived [Serialize]/[Deserialize] of /repo/openid4vp-frontend/src/lib.rs:7-28. *)
From Verif Require Import Base Json JsonText Serde Session.

(** [Serialize for Outcome], lib.rs:20-28: externally tagged struct variants. *)
Definition outcome_to_json (o : outcome) : json :=
  match o with
  | OError cause => JObj [("Error", JObj [("cause", JStr cause)])]
  | OFailure reason => JObj [("Failure", JObj [("reason", JStr reason)])]
  | OSuccess info => JObj [("Success", JObj [("info", info)])]
  end.
(** [Serialize for Status], lib.rs:7-17. *)
Definition status_to_json (st : status) : json :=
  match st with
  | SentRequestByReference => JStr "SentRequestByReference"
  | SentRequest => JStr "SentRequest"
  | ReceivedResponse => JStr "ReceivedResponse"
  | Complete o => JObj [("Complete", outcome_to_json o)]
  end.
Definition status_to_text (st : status) : string := jprint (status_to_json st).

(** Reading text ([serde_json::from_str], external).  The argument is the text as parsed, with the members of
    objects as they are written.  A struct variant with one field: an object in which the field occurs once, other
    members being ignored, or an array of one element. *)
Definition one_field {A} (f : json -> res A) (k : string) (j : json) : res A :=
  match j with
  | JObj m => match filter (fun kv => String.eqb k (fst kv)) m with
              | [(_, v)] => f v
              | [] => Err "missing field"
              | _ => Err "duplicate field"
              end
  | JArr [v] => f v
  | _ => Err "invalid type"
  end.
Definition outcome_of_raw (j : json) : res outcome :=
  match j with
  | JObj [(k, v)] =>
      if String.eqb k "Error" then rmap OError (one_field de_str "cause" v)
      else if String.eqb k "Failure" then rmap OFailure (one_field de_str "reason" v)
      else if String.eqb k "Success" then rmap OSuccess (one_field (fun i => Ok (normalize i)) "info" v)
      else Err "unknown variant"
  | _ => Err "expected enum"
  end.
(** A unit variant is its name, or an object with its name and null. *)
Definition unit_status (k : string) : res status :=
  if String.eqb k "SentRequestByReference" then Ok SentRequestByReference
  else if String.eqb k "SentRequest" then Ok SentRequest
  else if String.eqb k "ReceivedResponse" then Ok ReceivedResponse
  else Err "unknown variant".
Definition status_of_raw (j : json) : res status :=
  match j with
  | JStr k => unit_status k
  | JObj [(k, v)] =>
      if String.eqb k "Complete" then rmap Complete (outcome_of_raw v)
      else match v with JNull => unit_status k | _ => Err "invalid type" end
  | _ => Err "expected enum"
  end.
Definition status_of_text (s : string) : res status :=
  let? j := ok_or (parse_raw s) "syntax" in status_of_raw j.
