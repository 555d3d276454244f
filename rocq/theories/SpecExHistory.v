(** Specification vocabulary for histories of the example verifier's HTTP server. *)
From Verif Require Import Base Json Url Request Dcql Response Session Server ExVerifier SpecSession SpecServer.

(** The map of sessions after a history (newest first). *)
Fixpoint hafter (l : list (hreq * hevent)) : amap :=
  match l with
  | [] => aempty
  | (_, HDoes e) :: older => effect e (hafter older)
  | (_, HReply _) :: older => hafter older
  end.
(** What is recorded between two states. *)
Definition hhistory (x y : hsys) (l : list (hreq * hevent)) : Prop := hs_log y = l ++ hs_log x.
(** The request is not being handled. *)
Definition idle (h : hreq) (x : hsys) : Prop := forall p, ~ In (h, p) (hs_tasks x).
(** The answers given in a history, oldest first. *)
Definition replies (l : list (hreq * hevent)) : list (hreq * reply) :=
  flat_map (fun e => match snd e with HReply r => [(fst e, r)] | HDoes _ => [] end) (rev l).

Section WithUrl.
Variable url_parse : string -> option url.
Variable jwe_open : string -> res string.
Variable a : adapter.
(** [n] steps, none of which begins to handle a request. *)
Inductive hquiet : hsys -> hsys -> nat -> Prop :=
| hquiet_none : forall x, hquiet x x 0
| hquiet_step : forall x y z n, hquiet x y n -> hstep url_parse jwe_open a y z ->
    length (hs_tasks z) <= length (hs_tasks y) -> hquiet x z (S n).
End WithUrl.
