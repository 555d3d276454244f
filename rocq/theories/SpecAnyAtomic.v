(** Specification vocabulary: the moment at which a call takes effect when the verifier has some session store that may fail, and
    sequences of calls with sessions that expire in between. *)
From Verif Require Import Base Json Url Request Metadata Dcql Response Session Client Builder Server AnyStore SpecSession SpecServer SpecAtomic.

(** The moment at which a call takes effect: its last operation on the store, when that succeeds.  A poll only reads, and a
    retrieval only reads unless the request has yet to be marked as sent. *)
Definition succeeds (ce : call * event) : bool :=
  match ce with
  | (_, EvInitiate _ (Ok _)) | (_, EvUpdate _ _ (Ok _)) | (_, EvRemove _ (Ok _)) => true
  | (CPoll _, EvGet _ (Ok _)) => true
  | (CRetrieve _, EvGet _ (Ok s)) => match s_status s with SentRequestByReference => false | _ => true end
  | _ => false
  end.
(** The calls that took effect in a history, in the order in which they did (newest first, like the history). *)
Definition carried_out (l : list (nat * (call * event))) : list call := map fst (filter succeeds (map snd l)).
(** How often call number [i] took effect. *)
Definition times (i : nat) (l : list (nat * (call * event))) : nat :=
  length (filter (fun x => Nat.eqb (fst x) i && succeeds (snd x)) l).

(** A sequence of calls, and the same with further removals: sessions that expired. *)
Inductive with_expiries : list call -> list call -> Prop :=
| expiries_none : with_expiries [] []
| expiries_call : forall c l k, with_expiries l k -> with_expiries (c :: l) (c :: k)
| expiries_removal : forall u l k, with_expiries l k -> with_expiries l (CRemove u :: k).

(** No session is marked as sent after a verdict on its response was recorded. *)
Definition marked_in_time (l : list (nat * (call * event))) : Prop :=
  forall newer i c u between j c' o older,
    l <> newer ++ (i, (c, EvUpdate u SentRequest (Ok tt))) :: between ++ (j, (c', EvUpdate u (Complete o) (Ok tt))) :: older.

(** Executions in which the process may crash and restart: the calls in flight are gone, the store and the history stay. *)
Inductive crashing (url_parse : string -> option url) {S} (st : session_store S) (m0 : S) : any_sys S -> Prop :=
| crash_init : crashing url_parse st m0 (mk_any m0 0 [] [])
| crash_next : forall a b, crashing url_parse st m0 a -> any_step url_parse S st a b -> crashing url_parse st m0 b
| crash_now : forall m n ts l, crashing url_parse st m0 (mk_any m n ts l) -> crashing url_parse st m0 (mk_any m n [] l).
