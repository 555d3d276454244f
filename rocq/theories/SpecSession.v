(** Specification vocabulary for sessions: abstract map, data of a session, histories. *)
From Verif Require Import Base Json Url Request Metadata Dcql Response Session Client Builder Server.

(** The abstract store: a function from session ids. *)
Definition amap := uuid -> option session.
Definition aempty : amap := fun _ => None.
Definition aset (u : uuid) (v : option session) (f : amap) : amap := fun u' => if N.eqb u' u then v else f u'.

(** Operations on a store, and what they mean on the abstract map. *)
Inductive op := OpInitiate (s : session) | OpUpdate (u : uuid) (st : status) | OpGet (u : uuid) | OpRemove (u : uuid).
Inductive op_result := RNone (x : res unit) | RSession (x : res session).
Definition apply_op (o : op) (m : store) : store * op_result :=
  match o with
  | OpInitiate s => let (m', x) := initiate false s m in (m', RNone x)
  | OpUpdate u st => let (m', x) := update_status false u st m in (m', RNone x)
  | OpGet u => (m, RSession (get_session false u m))
  | OpRemove u => let (m', x) := remove_session false u m in (m', RNone x)
  end.
Definition apply_abs (o : op) (f : amap) : amap * op_result :=
  match o with
  | OpInitiate s => (aset (s_uuid s) (Some s) f, RNone (Ok tt))
  | OpUpdate u st =>
      match f u with
      | Some s => (aset u (Some (mk_session (s_uuid s) st (s_jwt s) (s_request s) (s_dcql s))) f, RNone (Ok tt))
      | None => (f, RNone (Err "session not found"))
      end
  | OpGet u => (f, RSession (match f u with Some s => Ok s | None => Err "session not found" end))
  | OpRemove u => match f u with
                  | Some _ => (aset u None f, RNone (Ok tt))
                  | None => (f, RNone (Err "session not found"))
                  end
  end.
Fixpoint apply_ops (os : list op) (m : store) : store * list op_result :=
  match os with
  | [] => (m, [])
  | o :: os => let (m1, r) := apply_op o m in let (m2, rs) := apply_ops os m1 in (m2, r :: rs)
  end.
Fixpoint apply_abss (os : list op) (f : amap) : amap * list op_result :=
  match os with
  | [] => (f, [])
  | o :: os => let (f1, r) := apply_abs o f in let (f2, rs) := apply_abss os f1 in (f2, r :: rs)
  end.

(** What a session was created with. *)
Definition same_request (s s' : session) : Prop :=
  s_uuid s = s_uuid s' /\ s_jwt s = s_jwt s' /\ s_request s = s_request s' /\ s_dcql s = s_dcql s'.

(** Session [u] is created, removed in a history. *)
Definition creates (u : uuid) (s : session) (l : list (call * event)) : Prop :=
  s_uuid s = u /\ exists c, In (c, EvInitiate s (Ok tt)) l.
Definition removes (u : uuid) (l : list (call * event)) : Prop := exists c, In (c, EvRemove u (Ok tt)) l.
(** The history of an execution from [a] to [b]. *)
Definition history (a b : sys) (l : list (call * event)) : Prop := sy_log b = l ++ sy_log a.

(** Progress of the protocol. *)
Definition progress (st : status) : N :=
  match st with SentRequestByReference => 0 | SentRequest => 1 | ReceivedResponse => 2 | Complete _ => 3 end.

(** A system seen by someone interested in session [u] only. *)
Definition only_session (u : uuid) (y : sys) : sys :=
  mk_sys (match st_get u (sy_store y) with Some s => [(u, s)] | None => [] end)
         (filter (fun t => N.eqb (target (fst t)) u) (sy_tasks y))
         (filter (fun e => N.eqb (target (fst e)) u) (sy_log y)).
(** Position in the order of statuses: by progress, and complete sessions by outcome. *)
Definition rank (st : status) : N :=
  match st with
  | SentRequestByReference => 0 | SentRequest => 1 | ReceivedResponse => 2
  | Complete (OError _) => 3 | Complete (OFailure _) => 4 | Complete (OSuccess _) => 5
  end.
(** The statuses a session can be created with. *)
Definition initial_status (st : status) : Prop := st = SentRequest \/ st = SentRequestByReference.

(** In the history [l], a response for session [u] was validated with outcome [o], for the session [s0] read from
    the store. *)
Definition validated (u : uuid) (o : outcome) (s0 : session) (r : auth_response) (l : list (call * event)) : Prop :=
  In (CVerify u r, EvValidate s0 r o) l /\ In (CVerify u r, EvGet u (Ok s0)) l.
(** The validator calls in a history, oldest first. *)
Definition validator_calls (l : list (call * event)) : list (session * auth_response) :=
  flat_map (fun e => match snd e with EvValidate s r _ => [(s, r)] | _ => [] end) (rev l).
