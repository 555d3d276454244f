(** Specification vocabulary for the command line verifier's web server. *)
From Coq Require Import ZArith.
From Verif Require Import Base Json Response Session Server ExVerifier ExHttp ExWeb ExConsole ExCliWeb SpecObject SpecVerifierEx SpecWeb.

(** Which methods are for which paths. *)
Definition cli_allowed (p m : string) : Prop := has_segment "request" p /\ reads m \/ has_segment "response" p /\ m = "POST".
Definition cli_known (p : string) : Prop := exists m, cli_allowed p m.

(** The request posts the response [r] for the session [id]. *)
Definition posts (q : hrequest) (id : uuid) (r : auth_response) : Prop := responds q id /\ fits q /\ from_form (hq_body q) = Ok r.
(** In the history, a posted response was validated with that outcome. *)
Definition judged (id : uuid) (l : list kentry) (q : hrequest) (r : auth_response) (o : outcome) : Prop :=
  posts q id r /\ exists s, In (KFor q (KDoes (EvValidate s r o))) l.

(** What is shown is true of what happened before. *)
Definition true_on_console (id : uuid) (l : list kentry) (d : display) : Prop :=
  match d with
  | DInitializing => False
  | DWaiting => True
  | DFetched => exists q s, fetches "request" q id /\ In (KFor q (KDoes (EvGet id (Ok s)))) l
  | DReceived => exists q u, responds q u /\ fits q /\ In (KFor q KArrived) l
  | DSuccess info => exists q t, judged id l q (Unencoded t) (OSuccess info)
      /\ members_are info [("credentials_received", JInt (Z.of_nat (length (ur_vp_token t))));
                           ("credential_query_ids", JArr (map JStr (map fst (ur_vp_token t))))]
  | DFailed reason => exists q jwe, judged id l q (Jwt jwe) (OFailure reason)
  end.

(** What a record of the web server tells of one of the handlers: the same events in the same order, and the answers of requests
    that reach no handler besides. *)
Section Tells.
Variable reaches : hrequest -> creq -> Prop.
Variable refused : hrequest -> N -> Prop.
Inductive tells : kentry -> cevent -> Prop :=
| te_arrived q h : reaches q h -> tells (KFor q KArrived) (EvArrived h)
| te_does q h e : reaches q h -> tells (KFor q (KDoes e)) (EvDoes h e)
| te_shown q h d : reaches q h -> tells (KFor q (KShown d)) (EvShown h d)
| te_answer q h r a : reaches q h -> on_wire q r a -> tells (KFor q (KAnswer a)) (EvAnswered h r)
| te_completed : tells KCompleted EvCompleted
| te_interrupted : tells KInterrupted EvInterrupted.
Inductive retells : list kentry -> list cevent -> Prop :=
| re_none : retells [] []
| re_both x e l k : tells x e -> retells l k -> retells (x :: l) (e :: k)
| re_refused q n l k : refused q n -> retells l k -> retells (KFor q (KAnswer (n, CNone)) :: l) k.
End Tells.
