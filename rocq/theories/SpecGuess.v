(** Specification vocabulary: two parties use the example verifier at the same time, and the second does not know the session id of
    the first. *)
From Verif Require Import Base Json Url Request Dcql Response Session Server ExVerifier.

(** The session a request is about. *)
Definition about (h : hreq) : option uuid :=
  match h with
  | HInitiate _ _ id => Some id
  | HRequest sid | HResponse sid _ | HStatus sid => uuid_of_string sid
  end.

(** The requests a party has sent, those being handled, and everything done for them, answers included (newest first). *)
Record party := mk_party { pt_sent : list hreq; pt_tasks : list (hreq * prog reply); pt_log : list (hreq * hevent) }.
Definition newcomer : party := mk_party [] [] [].
(** What a party can cause: a request is sent; the next action of the i-th of its requests, or the answer when none is left; it
    goes away from the i-th; nothing.  For an id that the server draws, any id: the worst case. *)
Inductive move := Send (h : hreq) | Proceed (i : nat) (contended : bool) | Abandon (i : nat) | Wait.
(** It knows the time and everything done for its own requests, more than their answers. *)
Definition strategy := nat -> party -> move.
Definition nobody : strategy := fun _ _ => Wait.

Section WithServer.
Variable url_parse : string -> option url.
Variable jwe_open : string -> res string.
Variable a : adapter.

(** The next action for a request, with what remains of it. *)
Definition next (contended : bool) (p : prog reply) (m : store) : option (store * option (prog reply) * hevent) :=
  match p with
  | Done (Ok r) => Some (m, None, HReply r)
  | Done (Err _) => None
  | Initiate s k => let (m', x) := initiate contended s m in Some (m', Some (k x), HDoes (EvInitiate s x))
  | Update u st k => let (m', x) := update_status contended u st m in Some (m', Some (k x), HDoes (EvUpdate u st x))
  | Get u k => let x := get_session contended u m in Some (m, Some (k x), HDoes (EvGet u x))
  | Remove u k => let (m', x) := remove_session contended u m in Some (m', Some (k x), HDoes (EvRemove u x))
  | Validate s r k => let o := app_validator jwe_open s r in Some (m, Some (k o), HDoes (EvValidate s r o))
  end.
Definition play (mv : move) (p : party) (m : store) : store * party :=
  let ts := pt_tasks p in
  match mv with
  | Send h => (m, mk_party (h :: pt_sent p) ((h, handler url_parse a h) :: ts) (pt_log p))
  | Proceed i contended =>
      match nth_error ts i with
      | Some (h, q) =>
          match next contended q m with
          | Some (m', rest, e) =>
              (m', mk_party (pt_sent p) (firstn i ts ++ match rest with Some q' => [(h, q')] | None => [] end ++ skipn (S i) ts) ((h, e) :: pt_log p))
          | None => (m, p)
          end
      | None => (m, p)
      end
  | Abandon i => (m, mk_party (pt_sent p) (firstn i ts ++ skipn (S i) ts) (pt_log p))
  | Wait => (m, p)
  end.

(** The sessions and the two parties. *)
Record world := mk_world { wo_store : store; wo_first : party; wo_second : party }.
(** From the start of the server, with the turns (newest first): [true] is a turn of the first party. *)
Fixpoint game (first second : strategy) (turns : list bool) : world :=
  match turns with
  | [] => mk_world [] newcomer newcomer
  | turn :: before =>
      let x := game first second before in
      if turn then let (m, p) := play (first (length before) (wo_first x)) (wo_first x) (wo_store x) in mk_world m p (wo_second x)
      else let (m, p) := play (second (length before) (wo_second x)) (wo_second x) (wo_store x) in mk_world m (wo_first x) p
  end.
End WithServer.

(** A party whose requests are all about one session. *)
Definition keeps_to (u : uuid) (s : strategy) : Prop := forall n p h v, s n p = Send h -> about h = Some v -> v = u.
(** The sequences [l] and [l'] merged. *)
Inductive merged {A} : list A -> list A -> list A -> Prop :=
| merged_none : merged [] [] []
| merged_first : forall x l l' all, merged l l' all -> merged (x :: l) l' (x :: all)
| merged_second : forall x l l' all, merged l l' all -> merged l (x :: l') (x :: all).
