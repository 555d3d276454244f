(** Specification vocabulary for histories of concurrent calls: what the history says about the store, executions
    without new calls, executions in which no call is cancelled. *)
From Verif Require Import Base Json Url Request Dcql Response Session Server SpecSession.

(** The effect of an event on the abstract map of sessions. *)
Definition effect (e : event) (f : amap) : amap :=
  match e with
  | EvInitiate s (Ok _) => aset (s_uuid s) (Some s) f
  | EvUpdate u st (Ok _) => fst (apply_abs (OpUpdate u st) f)
  | EvRemove u (Ok _) => aset u None f
  | _ => f
  end.
(** The map after a history (newest first). *)
Fixpoint after (l : list (call * event)) : amap :=
  match l with [] => aempty | (_, e) :: older => effect e (after older) end.

(** The result of a store operation is what the abstract map gives, or the lock was held. *)
Definition locked {A} (x : res A) : Prop := x = Err "try_lock".
Definition explained (e : event) (f : amap) : Prop :=
  match e with
  | EvInitiate s x => locked x \/ RNone x = snd (apply_abs (OpInitiate s) f)
  | EvUpdate u st x => locked x \/ RNone x = snd (apply_abs (OpUpdate u st) f)
  | EvGet u x => locked x \/ RSession x = snd (apply_abs (OpGet u) f)
  | EvRemove u x => locked x \/ RNone x = snd (apply_abs (OpRemove u) f)
  | EvValidate _ _ _ | EvReturn _ => True
  end.

Section WithUrl.
Variable url_parse : string -> option url.

(** [n] steps, none of which starts a call. *)
Inductive quiet : sys -> sys -> nat -> Prop :=
| quiet_none : forall a, quiet a a 0
| quiet_step : forall a b c n, quiet a b n -> step url_parse b c -> length (sy_tasks c) <= length (sy_tasks b) -> quiet a c (S n).

(** Steps that start a call or are recorded; the only other steps cancel a call. *)
Definition no_cancel (a b : sys) : Prop :=
  step url_parse a b /\ (length (sy_tasks a) < length (sy_tasks b) \/ length (sy_log a) < length (sy_log b)).
Inductive uncancelled : sys -> Prop :=
| uncancelled_init : uncancelled sys_init
| uncancelled_step : forall a b, uncancelled a -> no_cancel a b -> uncancelled b.
End WithUrl.

(** The calls that returned in a history, with the results, oldest first. *)
Definition returned (l : list (call * event)) : list (call * res answer) :=
  flat_map (fun e => match snd e with EvReturn x => [(fst e, x)] | _ => [] end) (rev l).
