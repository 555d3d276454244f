(** Specification vocabulary: how many sessions a verifier keeps. *)
From Verif Require Import Base Json Url Request Dcql Response Session Server ExVerifier.

(** The ids under which sessions were stored, and those of sessions removed, with the events of a history. *)
Definition begun (l : list event) : list uuid :=
  flat_map (fun e => match e with EvInitiate s (Ok _) => [s_uuid s] | _ => [] end) l.
Definition ended (l : list event) : list uuid :=
  flat_map (fun e => match e with EvRemove u (Ok _) => [u] | _ => [] end) l.
(** What the example verifier's handlers did. *)
Definition done_by (l : list (hreq * hevent)) : list event :=
  flat_map (fun x => match snd x with HDoes e => [e] | HReply _ => [] end) l.
(** [ids] are the ids of the sessions kept, each once. *)
Definition kept (m : store) (ids : list uuid) : Prop :=
  NoDup ids /\ forall u, In u ids <-> exists s, st_get u m = Some s.
