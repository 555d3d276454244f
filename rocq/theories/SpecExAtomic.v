(** Specification vocabulary: HTTP requests to the example verifier served one at a time. *)
From Verif Require Import Base Json Url Request Dcql Response Session Server ExVerifier SpecSession SpecServer SpecAtomic SpecExHistory.

Section WithUrl.
Variable url_parse : string -> option url.
Variable jwe_open : string -> res string.
Variable a : adapter.
(** Requests served one after the other from an empty store, each alone and with the lock free, with their answers (newest
    first), and the store after them. *)
Inductive in_turn : list (hreq * reply) -> store -> Prop :=
| turn_none : in_turn [] []
| turn_more : forall l m h m' judged r,
    in_turn l m -> run false (app_validator jwe_open) (handler url_parse a h) m = (m', judged, Ok r) -> in_turn ((h, r) :: l) m'.
(** States reached without dropping a request. *)
Inductive undropped : hsys -> Prop :=
| undropped_init : undropped hs_init
| undropped_step : forall x y, undropped x -> hstep url_parse jwe_open a x y ->
    length (hs_tasks x) < length (hs_tasks y) \/ length (hs_log x) < length (hs_log y) -> undropped y.
End WithUrl.

(** The moment at which a request takes effect: its last operation on the store.  The status is only read, and fetching a
    request object only reads unless the request has yet to be marked as sent; a response takes effect when its verdict is
    recorded; handling also ends when the session is not there. *)
Definition comes_to_pass (he : hreq * hevent) : bool :=
  match he with
  | (_, HReply _) => false
  | (_, HDoes (EvInitiate _ x)) | (_, HDoes (EvUpdate _ _ x)) | (_, HDoes (EvRemove _ x)) => got_lock x
  | (HStatus _, HDoes (EvGet _ (Ok _))) => true
  | (HRequest _, HDoes (EvGet _ (Ok s))) => match s_status s with SentRequestByReference => false | _ => true end
  | (_, HDoes (EvGet _ (Err e))) => got_lock (A := session) (Err e)
  | _ => false
  end.
(** The requests that took effect in a history, in the order in which they did (newest first, like the history). *)
Definition came_to_pass (l : list (hreq * hevent)) : list hreq := map fst (filter comes_to_pass l).

(** A session was created under the id. *)
Definition hcreates (u : uuid) (s : session) (l : list (hreq * hevent)) : Prop :=
  s_uuid s = u /\ exists h, In (h, HDoes (EvInitiate s (Ok tt))) l.
(** No two requests under one id. *)
Definition sessions_apart (l : list (hreq * hevent)) : Prop :=
  forall u s s', hcreates u s l -> hcreates u s' l -> same_request s s'.
(** No request is marked as sent after its response was judged (C94 tells how that can happen). *)
Definition no_late_fetch (l : list (hreq * hevent)) : Prop :=
  forall newer h u older s, l = newer ++ (h, HDoes (EvUpdate u SentRequest (Ok tt))) :: older -> hafter older u = Some s ->
    (progress (s_status s) <= 1)%N.
(** While the request was handled, an operation found the lock held. *)
Definition contended (h : hreq) (l : list (hreq * hevent)) : Prop := exists e, In (h, HDoes e) l /\ lock_held e = true.

(** Executions in which no fetch of a request object is under way when a verdict on the response to it is recorded, as when
    wallets answer only once they have the request. *)
Inductive answered_later (url_parse : string -> option url) (jwe_open : string -> res string) (a : adapter) : hsys -> Prop :=
| later_init : answered_later url_parse jwe_open a hs_init
| later_step : forall x y, answered_later url_parse jwe_open a x -> hstep url_parse jwe_open a x y ->
    (forall h u o, hs_log y = (h, HDoes (EvUpdate u (Complete o) (Ok tt))) :: hs_log x ->
       forall sid p, uuid_of_string sid = Some u -> ~ In (HRequest sid, p) (hs_tasks x)) ->
    answered_later url_parse jwe_open a y.
