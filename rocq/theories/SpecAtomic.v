(** Specification vocabulary: calls executed one at a time, and the moment at which a concurrent call takes effect. *)
From Verif Require Import Base Json Url Request Metadata Dcql Response Session Client Builder Server SpecSession SpecServer.

(** Calls executed one after the other from an empty store, each alone and with the lock free, with their answers (newest
    first), and the store after them. *)
Inductive one_by_one (url_parse : string -> option url) (v : session -> auth_response -> outcome)
  : list (call * res answer) -> store -> Prop :=
| one_none : one_by_one url_parse v [] []
| one_more : forall l m c m' judged x,
    one_by_one url_parse v l m -> run false v (code url_parse c) m = (m', judged, x) -> one_by_one url_parse v ((c, x) :: l) m'.

(** An operation that did not find the lock held. *)
Definition got_lock {A} (x : res A) : bool := match x with Ok _ => true | Err e => negb (String.eqb e "try_lock") end.
(** An operation that found the lock held. *)
Definition lock_held (e : event) : bool :=
  match e with
  | EvInitiate _ x | EvUpdate _ _ x | EvRemove _ x => negb (got_lock x)
  | EvGet _ x => negb (got_lock x)
  | EvValidate _ _ _ | EvReturn _ => false
  end.
(** The moment at which a call takes effect: its last operation on the store.  A poll only reads, and a retrieval only reads
    unless the request has yet to be marked as sent; a response takes effect when its verdict is recorded; a call also ends when
    the session it reads is not there. *)
Definition takes_effect (ce : call * event) : bool :=
  match ce with
  | (_, EvInitiate _ x) | (_, EvUpdate _ _ x) | (_, EvRemove _ x) => got_lock x
  | (CPoll _, EvGet _ (Ok _)) => true
  | (CRetrieve _, EvGet _ (Ok s)) => match s_status s with SentRequestByReference => false | _ => true end
  | (_, EvGet _ (Err e)) => got_lock (A := session) (Err e)
  | _ => false
  end.
(** The calls that took effect in a history, in the order in which they did (newest first, like the history). *)
Definition in_effect (l : list (call * event)) : list call := map fst (filter takes_effect l).

(** The validator is the function [v], which does not look at the status of the session. *)
Definition judged_by (v : session -> auth_response -> outcome) (l : list (call * event)) : Prop :=
  (forall s s' r, same_request s s' -> v s r = v s' r)
  /\ forall c s r o, In (c, EvValidate s r o) l -> o = v s r.
(** No two requests under one id. *)
Definition ids_apart (l : list (call * event)) : Prop :=
  forall u s s', creates u s l -> creates u s' l -> same_request s s'.
(** No request is marked as sent after its response was judged (C38 tells how that can happen). *)
Definition no_late_mark (l : list (call * event)) : Prop :=
  forall newer c u older s, l = newer ++ (c, EvUpdate u SentRequest (Ok tt)) :: older -> after older u = Some s -> (progress (s_status s) <= 1)%N.
(** A call that did not end because it found the lock held. *)
Definition uncontended (cx : call * res answer) : bool := got_lock (snd cx).

(** Executions in which no retrieval of a request is under way when a verdict on its response is recorded, as when wallets answer
    only once they have the request. *)
Inductive fetched_first (url_parse : string -> option url) : sys -> Prop :=
| fetched_init : fetched_first url_parse sys_init
| fetched_step : forall a b, fetched_first url_parse a -> step url_parse a b ->
    (forall c u o, sy_log b = (c, EvUpdate u (Complete o) (Ok tt)) :: sy_log a -> forall p, ~ In (CRetrieve u, p) (sy_tasks a)) ->
    fetched_first url_parse b.
