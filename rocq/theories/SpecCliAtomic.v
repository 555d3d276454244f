(** Specification vocabulary: requests to the command line verifier attended to one at a time. *)
From Verif Require Import Base Json Request Response Session Server ExVerifier ExCli ExConsole SpecSession SpecAtomic.

(** Handling without anything else going on and with the lock free: the store and the answer in the end, whatever is set and
    printed on the way. *)
Fixpoint undisturbed (p : cprog) (m : store) : store * reply :=
  match p with
  | CDone r => (m, r)
  | CSet _ k => undisturbed k m
  | CRead k => undisturbed k m
  | CShow _ k => undisturbed k m
  | CNotify k => undisturbed k m
  | CGet u k => undisturbed (k (get_session false u m)) m
  | CUpdate u st k => let '(m', x) := update_status false u st m in undisturbed (k x) m'
  | CInitiate s k => let '(m', x) := initiate false s m in undisturbed (k x) m'
  | CRemove u k => let '(m', x) := remove_session false u m in undisturbed (k x) m'
  | CValidate s r k => undisturbed (k (cli_validator s r)) m
  end.
(** Requests attended to one after the other from the store [m0], with their answers (newest first), and the store after
    them. *)
Inductive attended (m0 : store) : list (creq * reply) -> store -> Prop :=
| attended_none : attended m0 [] m0
| attended_more : forall l m h m' r, attended m0 l m -> undisturbed (chandler h) m = (m', r) -> attended m0 ((h, r) :: l) m'.

(** The moment at which a request takes effect: its last operation on the store.  A fetch only reads unless the request has yet
    to be marked as sent; a response takes effect when its verdict is recorded; handling also ends when the session is not
    there. *)
Definition settles (e : cevent) : bool :=
  match e with
  | EvDoes _ (EvInitiate _ x) | EvDoes _ (EvUpdate _ _ x) | EvDoes _ (EvRemove _ x) => got_lock x
  | EvDoes (CFetch _) (EvGet _ (Ok s)) => match s_status s with SentRequestByReference => false | _ => true end
  | EvDoes _ (EvGet _ (Err x)) => got_lock (A := session) (Err x)
  | _ => false
  end.
(** The requests that took effect in a history, in the order in which they did (newest first, like the history). *)
Definition settled (l : list cevent) : list creq :=
  flat_map (fun e => match e with EvDoes h _ => if settles e then [h] else [] | _ => [] end) l.

(** A verdict was recorded for the session. *)
Definition decided (u : uuid) (l : list cevent) : Prop := exists h o, In (EvDoes h (EvUpdate u (Complete o) (Ok tt))) l.
(** No request is marked as sent after a verdict on it was recorded. *)
Definition none_late (l : list cevent) : Prop :=
  forall newer h u older, l = newer ++ EvDoes h (EvUpdate u SentRequest (Ok tt)) :: older -> ~ decided u older.
(** While the request was handled, an operation found the lock held. *)
Definition held_up (h : creq) (l : list cevent) : Prop := exists e, In (EvDoes h e) l /\ lock_held e = true.

(** States reached without dropping a request. *)
Inductive all_kept (m0 : store) : csys -> Prop :=
| kept_init : all_kept m0 (cs_init m0)
| kept_step : forall x y, all_kept m0 x -> cstep x y ->
    (length (cs_tasks y) < length (cs_tasks x) -> length (cs_log x) < length (cs_log y)) -> all_kept m0 y.
(** Executions in which no fetch of the request is under way when a verdict on the response to it is recorded. *)
Inductive fetched_before (m0 : store) : csys -> Prop :=
| before_init : fetched_before m0 (cs_init m0)
| before_step : forall x y, fetched_before m0 x -> cstep x y ->
    (forall h u o, cs_log y = EvDoes h (EvUpdate u (Complete o) (Ok tt)) :: cs_log x ->
       forall sid p, uuid_of_string sid = Some u -> ~ In (CFetch sid, p) (cs_tasks x)) ->
    fetched_before m0 y.
