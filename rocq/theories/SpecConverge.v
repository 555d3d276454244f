(** Specification vocabulary: HTTP requests to the example verifier that are repeated or come in another order. *)
From Verif Require Import Base Json Url Request Dcql Response Session Server ExVerifier SpecSession SpecServer SpecExHistory.

(** The same requests, however often each and in whatever order. *)
Definition same_requests (l l' : list hreq) : Prop := forall h, In h l <-> In h l'.
(** No session id is used for two presentations. *)
Definition started_once (l : list hreq) : Prop :=
  NoDup (flat_map (fun h => match h with HInitiate _ _ id => [id] | _ => [] end) l).
(** All responses sent to one session are the same. *)
Definition one_response (l : list hreq) : Prop :=
  forall sid sid' body body', In (HResponse sid body) l -> In (HResponse sid' body') l -> uuid_of_string sid = uuid_of_string sid' -> body = body'.
(** None is answered with an error. *)
Definition no_errors (l : list (hreq * reply)) : Prop := forall h n, ~ In (h, RError n) l.
