(** Specification vocabulary for the command line verifier while it runs. *)
From Coq Require Import ZArith.
From Verif Require Import Base Utf8 Json Request Response Session Builder Server ExVerifier ExConsole SpecObject SpecSession SpecExample SpecVerifierEx.

(** The request posts the response [r] for the session [id]. *)
Definition posts_response (id : uuid) (h : creq) (r : auth_response) : Prop :=
  exists sid body, h = CResponse sid body /\ utf8_valid body = true /\ uuid_of_string sid = Some id /\ from_form body = Ok r.
(** In the history, a posted response was validated with that outcome. *)
Definition validated (id : uuid) (l : list cevent) (h : creq) (r : auth_response) (o : outcome) : Prop :=
  posts_response id h r /\ exists s, In (EvDoes h (EvValidate s r o)) l.

(** What is shown is true of what happened before: that the request was fetched, that something was posted for some
    session, or the verdict on a posted response. *)
Definition truthful (id : uuid) (l : list cevent) (d : display) : Prop :=
  match d with
  | DInitializing => False
  | DWaiting => True
  | DFetched => exists sid s, uuid_of_string sid = Some id /\ In (EvDoes (CFetch sid) (EvGet id (Ok s))) l
  | DReceived => exists sid body u, uuid_of_string sid = Some u /\ utf8_valid body = true /\ In (EvArrived (CResponse sid body)) l
  | DSuccess info => exists h t, validated id l h (Unencoded t) (OSuccess info)
      /\ members_are info [("credentials_received", JInt (Z.of_nat (length (ur_vp_token t))));
                           ("credential_query_ids", JArr (map JStr (map fst (ur_vp_token t))))]
  | DFailed reason => exists h jwe, validated id l h (Jwt jwe) (OFailure reason)
  end.

(** The body of a posted response is not text. *)
Definition unreadable (h : creq) : Prop := exists sid body, h = CResponse sid body /\ utf8_valid body = false.
(** A refusal says by its code whether the body was text.  A successful answer is the request of the session to whoever fetches it, or an empty object after the outcome has
    been recorded. *)
Definition honest (id : uuid) (jwt : string) (l : list cevent) (h : creq) (a : reply) : Prop :=
  match a with
  | RError code => unreadable h /\ code = 400%N \/ ~ unreadable h /\ code = 500%N
  | RJwt jwt' => jwt' = jwt /\ exists sid, h = CFetch sid /\ uuid_of_string sid = Some id
  | RJson code body => code = 200%N /\ body = JObj []
      /\ exists r o, validated id l h r o /\ In (EvDoes h (EvUpdate id (Complete o) (Ok tt))) l
  end.

(** What was shown, oldest first, and the answers given. *)
Definition shown (l : list cevent) : list display := flat_map (fun e => match e with EvShown _ d => [d] | _ => [] end) (rev l).
Definition answers (l : list cevent) : list (creq * reply) :=
  flat_map (fun e => match e with EvAnswered h a => [(h, a)] | _ => [] end) (rev l).

(** The requests that arrived, oldest first. *)
Definition arrivals (l : list cevent) : list creq := flat_map (fun e => match e with EvArrived h => [h] | _ => [] end) (rev l).
(** The server stops listening. *)
Definition ends (e : cevent) : Prop := e = EvCompleted \/ e = EvInterrupted.
(** What is shown of an outcome, and the outcome for a response. *)
Definition reports (o : outcome) (d : display) : Prop :=
  match o with OSuccess info => d = DSuccess info | OFailure reason => d = DFailed reason | OError cause => d = DFailed cause end.
Definition outcome_for (r : auth_response) (o : outcome) : Prop :=
  match r with
  | Unencoded t => exists info, o = OSuccess info
      /\ members_are info [("credentials_received", JInt (Z.of_nat (length (ur_vp_token t))));
                           ("credential_query_ids", JArr (map JStr (map fst (ur_vp_token t))))]
  | Jwt _ => exists reason, o = OFailure reason
  end.
