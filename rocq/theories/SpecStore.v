(** Specification vocabulary for verifiers with any session store: what each entry point asks of a store, and what
    a store is expected to do. *)
From Verif Require Import Base Json Url Request Metadata Dcql Response Session Client Builder Server AnyStore.

(** What a call asks of the store and of the validator, in order, and what it returns, whatever the answers are. *)
Definition failed {A} (x : res A) : Prop := exists e, x = Err e.
Definition protocol (url_parse : string -> option url) (c : call) (events : list event) (result : res answer) : Prop :=
  match c with
  | CPoll u =>
      exists x, events = [EvGet u x]
      /\ match x with Ok s => result = Ok (AStatus (s_status s)) | Err _ => failed result end
  | CRetrieve u =>
      (exists e, events = [EvGet u (Err e)] /\ failed result)
      \/ (exists s, events = [EvGet u (Ok s)] /\ s_status s <> SentRequestByReference /\ result = Ok (AJwt (s_jwt s)))
      \/ (exists s x, events = [EvGet u (Ok s); EvUpdate u SentRequest x] /\ s_status s = SentRequestByReference
          /\ match x with Ok _ => result = Ok (AJwt (s_jwt s)) | Err _ => failed result end)
  | CVerify u response =>
      (exists e, events = [EvGet u (Err e)] /\ failed result)
      \/ (exists s o x, events = [EvGet u (Ok s); EvValidate s response o; EvUpdate u (Complete o) x]
          /\ match x with Ok _ => result = Ok ANothing | Err _ => failed result end)
  | CRemove u =>
      exists x, events = [EvRemove u x] /\ match x with Ok _ => result = Ok ANothing | Err _ => failed result end
  (* the session given to the store is the one an empty memory store would hold *)
  | CBuild b u wm =>
      (exists e, events = [] /\ failed result /\ build_with_session_id url_parse b u wm false [] = ([], Err e))
      \/ (exists s d x, events = [EvInitiate s x] /\ build_with_session_id url_parse b u wm false [] = ([(u, s)], Ok d)
          /\ match x with Ok _ => result = Ok (AUrl d) | Err _ => failed result end)
  | CBuildDcApi b u =>
      (exists e, events = [] /\ failed result /\ build_dc_api url_parse b u false [] = ([], Err e))
      \/ (exists s x, events = [EvInitiate s x] /\ build_dc_api url_parse b u false [] = ([(u, s)], Ok (u, s_jwt s))
          /\ match x with Ok _ => result = Ok (ARequest u (s_jwt s)) | Err _ => failed result end)
  end.

(** The events of call number [i], oldest first. *)
Definition events_of (i : nat) (l : list (nat * (call * event))) : list event :=
  map (fun e => snd (snd e)) (filter (fun e => Nat.eqb (fst e) i) (rev l)).

(** What a session store is expected to do. [look m u] is the session the store in state [m] holds under [u].  Every
    method either fails and changes nothing, or does what its documentation says; apart from that, sessions may only
    disappear (they expire). *)
Definition sets {S} (look : S -> uuid -> option session) (m m' : S) (u : uuid) (s : option session) : Prop :=
  look m' u = s /\ forall u', u' <> u -> look m' u' = look m u'.
Definition unchanged {S} (look : S -> uuid -> option session) (m m' : S) : Prop := forall u, look m' u = look m u.
Definition with_status (s s' : session) (v : status) : Prop :=
  s_uuid s' = s_uuid s /\ s_status s' = v /\ s_jwt s' = s_jwt s /\ s_request s' = s_request s /\ s_dcql s' = s_dcql s.
Record faithful {S} (st : session_store S) (look : S -> uuid -> option session) : Prop := mk_faithful {
  fa_initiate : forall s m m' x, ss_initiate st s m m' x ->
    match x with Ok _ => sets look m m' (s_uuid s) (Some s) | Err _ => unchanged look m m' end;
  fa_update : forall u v m m' x, ss_update st u v m m' x ->
    match x with
    | Ok _ => exists s s', look m u = Some s /\ with_status s s' v /\ sets look m m' u (Some s')
    | Err _ => unchanged look m m'
    end;
  fa_get : forall u m m' x, ss_get st u m m' x ->
    unchanged look m m' /\ match x with Ok s => look m u = Some s | Err _ => True end;
  fa_remove : forall u m m' x, ss_remove st u m m' x ->
    match x with Ok _ => (exists s, look m u = Some s) /\ sets look m m' u None | Err _ => unchanged look m m' end;
  fa_other : forall m m', ss_other st m m' -> forall u, look m' u = look m u \/ look m' u = None
}.

(** A store that merely invents nothing: whatever it may show under an identifier was stored under it or is an update of
    what it may show there.  It may show old versions, lose sessions, fail, and carry out what it reported as failed. *)
Record invents_nothing {S} (st : session_store S) (shows : S -> uuid -> session -> Prop) : Prop := mk_invents_nothing {
  no_initiate : forall s m m' x u s', ss_initiate st s m m' x -> shows m' u s' -> shows m u s' \/ u = s_uuid s /\ s' = s;
  no_update : forall u v m m' x u' s', ss_update st u v m m' x -> shows m' u' s' ->
    shows m u' s' \/ u' = u /\ exists s, shows m u s /\ with_status s s' v;
  no_get : forall u m m' x, ss_get st u m m' x ->
    (forall s, x = Ok s -> shows m u s) /\ forall u' s', shows m' u' s' -> shows m u' s';
  no_remove : forall u m m' x u' s', ss_remove st u m m' x -> shows m' u' s' -> shows m u' s';
  no_other : forall m m' u s, ss_other st m m' -> shows m' u s -> shows m u s
}.
(** A call that builds a request for a session. *)
Definition builds (c : call) (u : uuid) : Prop := (exists b wm, c = CBuild b u wm) \/ exists b, c = CBuildDcApi b u.
(** The same session, at whatever status. *)
Definition same_session (s s' : session) : Prop :=
  s_uuid s' = s_uuid s /\ s_jwt s' = s_jwt s /\ s_request s' = s_request s /\ s_dcql s' = s_dcql s.

(** The same but for the texts of errors. *)
Definition same_but_texts {A} (x y : res A) : Prop := x = y \/ failed x /\ failed y.
Definition same_event (e f : event) : Prop :=
  match e, f with
  | EvInitiate s x, EvInitiate s' y => s = s' /\ same_but_texts x y
  | EvUpdate u v x, EvUpdate u' v' y => u = u' /\ v = v' /\ same_but_texts x y
  | EvGet u x, EvGet u' y => u = u' /\ same_but_texts x y
  | EvRemove u x, EvRemove u' y => u = u' /\ same_but_texts x y
  | EvValidate s r o, EvValidate s' r' o' => s = s' /\ r = r' /\ o = o'
  | EvReturn x, EvReturn y => same_but_texts x y
  | _, _ => False
  end.

(** A history, and that of a verifier with the memory store: the same calls do the same in the same order, but that the
    latter may have further removals. *)
Inductive matches : list (nat * (call * event)) -> list (call * event) -> Prop :=
| matches_none : matches [] []
| matches_both : forall i c e f l k, same_event e f -> matches l k -> matches ((i, (c, e)) :: l) ((c, f) :: k)
| matches_removed : forall u l k, matches l k -> matches l ((CRemove u, EvReturn (Ok ANothing)) :: (CRemove u, EvRemove u (Ok tt)) :: k).
