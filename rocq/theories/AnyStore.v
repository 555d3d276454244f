(** The verifier of /repo/src/verifier/mod.rs:50-129 and request_builder.rs:57-243 with any implementation of the
    trait [SessionStore] (/repo/src/verifier/session.rs:20-34), under concurrency. *)
From Verif Require Import Base Json Url Request Metadata Dcql Response Session Client Builder Server.

(** [SessionStore], session.rs:20-34.  The state of the store and what each method may do to it and answer are
    arbitrary: a store may fail, lose, replicate or expire sessions.  [ss_other] is what happens to the store
    between calls (expiry, other users of the same data base). *)
Record session_store (S : Type) := mk_ss {
  ss_initiate : session -> S -> S -> res unit -> Prop;
  ss_update : uuid -> status -> S -> S -> res unit -> Prop;
  ss_get : uuid -> S -> S -> res session -> Prop;
  ss_remove : uuid -> S -> S -> res unit -> Prop;
  ss_other : S -> S -> Prop
}.
Arguments mk_ss {S}.
Arguments ss_initiate {S}.
Arguments ss_update {S}.
Arguments ss_get {S}.
Arguments ss_remove {S}.
Arguments ss_other {S}.

(** One awaited call of the store or of the validator. *)
Inductive act_on {S A} (st : session_store S) : S -> prog A -> S -> prog A -> event -> Prop :=
| on_initiate : forall m m' s k x, ss_initiate st s m m' x -> act_on st m (Initiate s k) m' (k x) (EvInitiate s x)
| on_update : forall m m' u v k x, ss_update st u v m m' x -> act_on st m (Update u v k) m' (k x) (EvUpdate u v x)
| on_get : forall m m' u k x, ss_get st u m m' x -> act_on st m (Get u k) m' (k x) (EvGet u x)
| on_remove : forall m m' u k x, ss_remove st u m m' x -> act_on st m (Remove u k) m' (k x) (EvRemove u x)
| on_validate : forall m s r k o, act_on st m (Validate s r k) m (k o) (EvValidate s r o).

(** The store, the calls in flight and the history (newest first).  Calls are numbered in the order in which they
    start. *)
Record any_sys (S : Type) := mk_any {
  an_store : S;
  an_started : nat;
  an_tasks : list (nat * (call * prog answer));
  an_log : list (nat * (call * event))
}.
Arguments mk_any {S}.
Arguments an_store {S}.
Arguments an_started {S}.
Arguments an_tasks {S}.
Arguments an_log {S}.

Section WithUrl.
Variable url_parse : string -> option url.
Variable S : Type.
Variable st : session_store S.

(** As [step] in Server.v: a call starts, takes one action, returns or is dropped; or the store changes by itself. *)
Inductive any_step : any_sys S -> any_sys S -> Prop :=
| any_start : forall m n ts l c,
    any_step (mk_any m n ts l) (mk_any m (Datatypes.S n) ((n, (c, code url_parse c)) :: ts) l)
| any_act : forall m m' n pre i c p p' post l e,
    act_on st m p m' p' e ->
    any_step (mk_any m n (pre ++ (i, (c, p)) :: post) l) (mk_any m' n (pre ++ (i, (c, p')) :: post) ((i, (c, e)) :: l))
| any_return : forall m n pre i c r post l,
    any_step (mk_any m n (pre ++ (i, (c, Done r)) :: post) l) (mk_any m n (pre ++ post) ((i, (c, EvReturn r)) :: l))
| any_drop : forall m n pre i c p post l,
    any_step (mk_any m n (pre ++ (i, (c, p)) :: post) l) (mk_any m n (pre ++ post) l)
| any_other : forall m m' n ts l, ss_other st m m' -> any_step (mk_any m n ts l) (mk_any m' n ts l).

(** Executions that start with the store in a given state. *)
Inductive any_reachable (m0 : S) : any_sys S -> Prop :=
| any_init : any_reachable m0 (mk_any m0 0 [] [])
| any_next : forall a b, any_reachable m0 a -> any_step a b -> any_reachable m0 b.
End WithUrl.
