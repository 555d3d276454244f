(** /repo/src/verifier/session.rs, /repo/openid4vp-frontend/src/lib.rs and the session handling of
    /repo/src/verifier/mod.rs:50-129. *)
From Verif Require Import Base Json Request Dcql Response.

(* ------------------------------------------------------------ status *)
(** [Outcome], frontend lib.rs:20-28. *)
Inductive outcome :=
| OError (cause : string)
| OFailure (reason : string)
| OSuccess (info : json).
(** [Outcome::ordering], lib.rs:36-44. *)
Definition outcome_ord (o : outcome) : N :=
  match o with OError _ => 0 | OFailure _ => 1 | OSuccess _ => 2 end.
(** [PartialEq for Outcome], lib.rs:30-34: the discriminants. *)
Definition outcome_eqb (a b : outcome) : bool :=
  match a, b with
  | OError _, OError _ | OFailure _, OFailure _ | OSuccess _, OSuccess _ => true
  | _, _ => false
  end.
(** [PartialOrd for Outcome], lib.rs:46-50. *)
Definition outcome_cmp (a b : outcome) : option comparison :=
  Some (N.compare (outcome_ord a) (outcome_ord b)).

(** [Status], lib.rs:7-17. *)
Inductive status :=
| SentRequestByReference
| SentRequest
| ReceivedResponse
| Complete (o : outcome).
Definition status_discr (s : status) : N :=
  match s with SentRequestByReference => 0 | SentRequest => 1 | ReceivedResponse => 2 | Complete _ => 3 end.
(** Derived [PartialEq], [PartialOrd]: variant order, then the payload. *)
Definition status_eqb (a b : status) : bool :=
  match a, b with
  | Complete x, Complete y => outcome_eqb x y
  | _, _ => (status_discr a =? status_discr b)%N
  end.
Definition status_cmp (a b : status) : option comparison :=
  match a, b with
  | Complete x, Complete y => outcome_cmp x y
  | _, _ => Some (N.compare (status_discr a) (status_discr b))
  end.
(** The [<] operator. *)
Definition status_lt (a b : status) : bool :=
  match status_cmp a b with Some Lt => true | _ => false end.

(* ------------------------------------------------------------ store *)
(** [Session], session.rs:11-18.  A [Uuid] is a number below [2^128]. *)
Definition uuid := N.
Record session := mk_session {
  s_uuid : uuid;
  s_status : status;
  s_jwt : string;
  s_request : aro;
  s_dcql : dcql
}.
Definition set_status (s : session) (st : status) : session :=
  mk_session (s_uuid s) st (s_jwt s) (s_request s) (s_dcql s).

(** [MemoryStore], session.rs:41-44: a [BTreeMap<Uuid, Session>], sorted by key. *)
Definition store := list (uuid * session).
Fixpoint st_get (u : uuid) (m : store) : option session :=
  match m with
  | [] => None
  | (k, v) :: r => if (u =? k)%N then Some v else st_get u r
  end.
Fixpoint st_insert (u : uuid) (s : session) (m : store) : store :=
  match m with
  | [] => [(u, s)]
  | (k, v) :: r =>
      match N.compare u k with
      | Lt => (u, s) :: m
      | Eq => (u, s) :: r
      | Gt => (k, v) :: st_insert u s r
      end
  end.
Fixpoint st_remove (u : uuid) (m : store) : store :=
  match m with
  | [] => []
  | (k, v) :: r => if (u =? k)%N then r else (k, v) :: st_remove u r
  end.

(** The four operations, session.rs:46-77.  [contended]: [try_lock] finds the mutex held by another
    task, which is an error. *)
Definition initiate (contended : bool) (s : session) (m : store) : store * res unit :=
  if contended then (m, Err "try_lock") else (st_insert (s_uuid s) s m, Ok tt).
Definition update_status (contended : bool) (u : uuid) (st : status) (m : store) : store * res unit :=
  if contended then (m, Err "try_lock")
  else match st_get u m with
       | Some s => (st_insert u (set_status s st) m, Ok tt)
       | None => (m, Err "session not found")
       end.
Definition get_session (contended : bool) (u : uuid) (m : store) : res session :=
  if contended then Err "try_lock" else ok_or (st_get u m) "session not found".
Definition remove_session (contended : bool) (u : uuid) (m : store) : store * res unit :=
  if contended then (m, Err "try_lock")
  else match st_get u m with
       | Some _ => (st_remove u m, Ok tt)
       | None => (m, Err "session not found")
       end.

(* ------------------------------------------------------------ programs *)
(** The verifier's entry points as programs over the session store.  Each store operation is one
    atomic action: the mutex guard lives inside one expression without [await].  Between two actions
    other tasks can run.  [Validate] is the call of the caller's validator function. *)
Inductive prog (A : Type) :=
| Done (r : res A)
| Initiate (s : session) (k : res unit -> prog A)
| Update (u : uuid) (st : status) (k : res unit -> prog A)
| Get (u : uuid) (k : res session -> prog A)
| Remove (u : uuid) (k : res unit -> prog A)
| Validate (s : session) (r : auth_response) (k : outcome -> prog A).
Arguments Done {A}.
Arguments Initiate {A}.
Arguments Update {A}.
Arguments Get {A}.
Arguments Remove {A}.
Arguments Validate {A}.

(** [poll_status], verifier/mod.rs:50-55. *)
Definition poll_code (u : uuid) : prog status := Get u (fun r => Done (rmap s_status r)).

(** [retrieve_authorization_request], verifier/mod.rs:79-92. *)
Definition retrieve_code (u : uuid) : prog string :=
  Get u (fun r =>
    match r with
    | Err e => Done (Err e)
    | Ok s =>
        if status_lt (s_status s) SentRequest then
          Update u SentRequest (fun x => Done (rmap (fun _ => s_jwt s) x))
        else Done (Ok (s_jwt s))
    end).

(** [verify_response], verifier/mod.rs:112-129. *)
Definition verify_code (u : uuid) (resp : auth_response) : prog unit :=
  Get u (fun r =>
    match r with
    | Err e => Done (Err e)
    | Ok s => Validate s resp (fun o => Update u (Complete o) (fun x => Done x))
    end).

(** [SessionStore::remove_session] called by the user of the library. *)
Definition remove_code (u : uuid) : prog unit := Remove u (fun x => Done x).

(* ------------------------------------------------------------ running alone *)
(** A program that no other task interferes with; the calls of the validator are recorded.
    [contended]: the lock is held by someone else throughout. *)
Fixpoint run {A} (contended : bool) (validator : session -> auth_response -> outcome) (p : prog A) (m : store)
  : store * list (session * auth_response) * res A :=
  match p with
  | Done r => (m, [], r)
  | Initiate s k => let (m', x) := initiate contended s m in run contended validator (k x) m'
  | Update u st k => let (m', x) := update_status contended u st m in run contended validator (k x) m'
  | Get u k => run contended validator (k (get_session contended u m)) m
  | Remove u k => let (m', x) := remove_session contended u m in run contended validator (k x) m'
  | Validate s r k =>
      let '(m', calls, x) := run contended validator (k (validator s r)) m in (m', (s, r) :: calls, x)
  end.
(** For programs that call no validator. *)
Definition run_plain {A} (contended : bool) (p : prog A) (m : store) : store * res A :=
  let '(m', _, x) := run contended (fun _ _ => OError "no validator") p m in (m', x).

Definition poll_status (u : uuid) (m : store) : store * res status := run_plain false (poll_code u) m.
Definition retrieve (u : uuid) (m : store) : store * res string := run_plain false (retrieve_code u) m.
Definition verify_response (u : uuid) (r : auth_response) (validator : session -> auth_response -> outcome)
    (m : store) : store * list (session * auth_response) * res unit :=
  run false validator (verify_code u r) m.
