(** The verifier under concurrency: any number of calls of the public entry points of
    /repo/src/verifier/mod.rs:50-129, request_builder.rs:57-243 and session.rs:21-77, interleaved. *)
From Verif Require Import Base Json Url Request Metadata Dcql Response Session Client Builder.

Fixpoint pmap {A B} (f : A -> B) (p : prog A) : prog B :=
  match p with
  | Done r => Done (rmap f r)
  | Initiate s k => Initiate s (fun x => pmap f (k x))
  | Update u st k => Update u st (fun x => pmap f (k x))
  | Get u k => Get u (fun x => pmap f (k x))
  | Remove u k => Remove u (fun x => pmap f (k x))
  | Validate s r k => Validate s r (fun x => pmap f (k x))
  end.

(** A call of an entry point.  [build] and [build_dc_api] draw a fresh id; here it is any id. *)
Inductive call :=
| CBuild (b : request_builder) (u : uuid) (wm : wallet_metadata)
| CBuildDcApi (b : request_builder) (u : uuid)
| CRetrieve (u : uuid)
| CVerify (u : uuid) (r : auth_response)
| CPoll (u : uuid)
| CRemove (u : uuid).
(** The session a call is about. *)
Definition target (c : call) : uuid :=
  match c with
  | CBuild _ u _ | CBuildDcApi _ u | CRetrieve u | CVerify u _ | CPoll u | CRemove u => u
  end.
(** What calls return. *)
Inductive answer :=
| AUrl (d : url)
| ARequest (u : uuid) (jwt : string)
| AJwt (jwt : string)
| AStatus (st : status)
| ANothing.

Section WithUrl.
Variable url_parse : string -> option url.

Definition code (c : call) : prog answer :=
  match c with
  | CBuild b u wm => pmap AUrl (build_code url_parse b u wm)
  | CBuildDcApi b u => pmap (fun x => ARequest (fst x) (snd x)) (build_dc_code url_parse b u)
  | CRetrieve u => pmap AJwt (retrieve_code u)
  | CVerify u r => pmap (fun _ => ANothing) (verify_code u r)
  | CPoll u => pmap AStatus (poll_code u)
  | CRemove u => pmap (fun _ => ANothing) (remove_code u)
  end.

(** Everything a call does, with the results. *)
Inductive event :=
| EvInitiate (s : session) (x : res unit)
| EvUpdate (u : uuid) (st : status) (x : res unit)
| EvGet (u : uuid) (x : res session)
| EvRemove (u : uuid) (x : res unit)
| EvValidate (s : session) (r : auth_response) (o : outcome)
| EvReturn (x : res answer).

(** One atomic action of a program.  Finding the lock held ([contended]) can happen at any store
    operation; the validator can return anything. *)
Inductive act {A} : store -> prog A -> store -> prog A -> event -> Prop :=
| act_initiate : forall m s k contended m' x,
    initiate contended s m = (m', x) -> act m (Initiate s k) m' (k x) (EvInitiate s x)
| act_update : forall m u st k contended m' x,
    update_status contended u st m = (m', x) -> act m (Update u st k) m' (k x) (EvUpdate u st x)
| act_get : forall m u k contended,
    act m (Get u k) m (k (get_session contended u m)) (EvGet u (get_session contended u m))
| act_remove : forall m u k contended m' x,
    remove_session contended u m = (m', x) -> act m (Remove u k) m' (k x) (EvRemove u x)
| act_validate : forall m s r k o, act m (Validate s r k) m (k o) (EvValidate s r o).

(** The store, the calls in flight with what remains of them, and the history (newest first). *)
Record sys := mk_sys {
  sy_store : store;
  sy_tasks : list (call * prog answer);
  sy_log : list (call * event)
}.

(** A call starts, a call in flight takes one action, returns, or is dropped (its future is
    cancelled). *)
Inductive step : sys -> sys -> Prop :=
| step_start : forall m ts l c, step (mk_sys m ts l) (mk_sys m ((c, code c) :: ts) l)
| step_act : forall m m' pre c p p' post l e,
    act m p m' p' e ->
    step (mk_sys m (pre ++ (c, p) :: post) l) (mk_sys m' (pre ++ (c, p') :: post) ((c, e) :: l))
| step_return : forall m pre c r post l,
    step (mk_sys m (pre ++ (c, Done r) :: post) l) (mk_sys m (pre ++ post) ((c, EvReturn r) :: l))
| step_drop : forall m pre c p post l,
    step (mk_sys m (pre ++ (c, p) :: post) l) (mk_sys m (pre ++ post) l).

Inductive steps : sys -> sys -> Prop :=
| steps_refl : forall a, steps a a
| steps_snoc : forall a b c, steps a b -> step b c -> steps a c.

Definition sys_init : sys := mk_sys [] [] [].
Definition reachable (y : sys) : Prop := steps sys_init y.
End WithUrl.
