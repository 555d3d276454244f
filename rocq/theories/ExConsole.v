(** The command line verifier while it runs: the console, the requests being handled and its end
    (/repo/examples/cli-verifier/main.rs:141-272, 636-676, 752-799). *)
From Coq Require Import ZArith.
From Verif Require Import Base Utf8 Json Url Request Response Session Builder Server ExVerifier ExCli.

(** [DisplayStatus], main.rs:141-149. *)
Inductive display :=
| DInitializing | DWaiting | DFetched | DReceived | DSuccess (info : json) | DFailed (reason : string).

(** What remains of handling a request: operations of the session store, and of the console state
    (main.rs:167-187).  [CSet]: [update_status].  [CRead] and [CShow]: [get_status] and then
    [print_status_update] of what it returned (main.rs:636-676; all its lines at once).
    [CNotify]: [notify_complete].  [CValidate]: the validator is entered. *)
Inductive cprog :=
| CDone (r : reply)
| CSet (d : display) (k : cprog)
| CRead (k : cprog)
| CShow (d : display) (k : cprog)
| CNotify (k : cprog)
| CGet (u : uuid) (k : res session -> cprog)
| CUpdate (u : uuid) (st : status) (k : res unit -> cprog)
| CInitiate (s : session) (k : res unit -> cprog)
| CRemove (u : uuid) (k : res unit -> cprog)
| CValidate (s : session) (r : auth_response) (k : outcome -> cprog).

(** A call of the library inside a handler. *)
Fixpoint within {A} (p : prog A) (k : res A -> cprog) : cprog :=
  match p with
  | Done x => k x
  | Initiate s f => CInitiate s (fun x => within (f x) k)
  | Update u st f => CUpdate u st (fun x => within (f x) k)
  | Get u f => CGet u (fun x => within (f x) k)
  | Remove u f => CRemove u (fun x => within (f x) k)
  | Validate s r f => CValidate s r (fun o => within (f o) k)
  end.

(** What the validator shows, main.rs:249-250,259-260. *)
Definition shown_for (o : outcome) : display :=
  match o with OSuccess info => DSuccess info | OFailure reason => DFailed reason | OError cause => DFailed cause end.
(** The validator, main.rs:234-267: it sets the display, prints it, notifies and returns its outcome. *)
Definition validating (s : session) (r : auth_response) (k : outcome -> cprog) : cprog :=
  let o := cli_validator s r in CSet (shown_for o) (CRead (CNotify (k o))).

(** HTTP requests, by route (main.rs:304-311). *)
Inductive creq := CFetch (sid : string) | CResponse (sid body : string).
(** [get_request_object], main.rs:194-217, and [receive_response], main.rs:220-272.  axum's [String] extractor
    answers a body that is not UTF-8 with 400; every other error is answered with 500 (main.rs:278-298). *)
Definition chandler (h : creq) : cprog :=
  match h with
  | CFetch sid =>
      match uuid_of_string sid with
      | None => CDone (RError 500)
      | Some u => within (retrieve_code u) (fun x =>
          match x with
          | Ok jwt => CSet DFetched (CRead (CDone (RJwt jwt)))
          | Err _ => CDone (RError 500)
          end)
      end
  | CResponse sid body =>
      if utf8_valid body then
        match uuid_of_string sid with
        | None => CDone (RError 500)
        | Some u =>
            CSet DReceived (CRead (
              match from_form body with
              | Err _ => CDone (RError 500)
              | Ok r => within (verify_code u r) (fun x => CDone (response_reply x))
              end))
        end
      else CDone (RError 400)
  end.

(** What happens: a request arrives, an operation of the store or a call of the validator, a print, an answer; the end after the
    notification, or otherwise. *)
Inductive cevent :=
| EvArrived (h : creq)
| EvDoes (h : creq) (e : event)
| EvShown (h : creq) (d : display)
| EvAnswered (h : creq) (r : reply)
| EvCompleted
| EvInterrupted.

(** The running program: the store, the display, the requests being handled, whether the notification has been
    given, whether the server has stopped, and what happened so far (newest first). *)
Record csys := mk_csys {
  cs_store : store;
  cs_display : display;
  cs_tasks : list (creq * cprog);
  cs_notified : bool;
  cs_over : bool;
  cs_log : list cevent
}.

(** One atomic action of what remains of a request. *)
Inductive cact (h : creq) : store * display * bool -> cprog -> store * display * bool -> cprog -> list cevent -> Prop :=
| c_set : forall m d n d' k, cact h (m, d, n) (CSet d' k) (m, d', n) k []
| c_read : forall m d n k, cact h (m, d, n) (CRead k) (m, d, n) (CShow d k) []
| c_show : forall m d n d' k, cact h (m, d, n) (CShow d' k) (m, d, n) k [EvShown h d']
| c_notify : forall m d n k, cact h (m, d, n) (CNotify k) (m, d, true) k []
| c_get : forall m d n u k contended, cact h (m, d, n) (CGet u k) (m, d, n) (k (get_session contended u m))
    [EvDoes h (EvGet u (get_session contended u m))]
| c_update : forall m d n u st k contended m' x, update_status contended u st m = (m', x) ->
    cact h (m, d, n) (CUpdate u st k) (m', d, n) (k x) [EvDoes h (EvUpdate u st x)]
| c_initiate : forall m d n s k contended m' x, initiate contended s m = (m', x) ->
    cact h (m, d, n) (CInitiate s k) (m', d, n) (k x) [EvDoes h (EvInitiate s x)]
| c_remove : forall m d n u k contended m' x, remove_session contended u m = (m', x) ->
    cact h (m, d, n) (CRemove u k) (m', d, n) (k x) [EvDoes h (EvRemove u x)]
| c_validate : forall m d n s r k,
    cact h (m, d, n) (CValidate s r k) (m, d, n) (validating s r k) [EvDoes h (EvValidate s r (cli_validator s r))].

(** A request arrives, takes one action, is answered or dropped; the program is completed by the notification
    ([wait_for_completion], main.rs:184-186,788-791) or ends otherwise (main.rs:782-787,792-795).  Then no more requests
    arrive; those being handled can still get on before they are dropped. *)
Inductive cstep : csys -> csys -> Prop :=
| cs_start : forall m d ts n l h, cstep (mk_csys m d ts n false l) (mk_csys m d ((h, chandler h) :: ts) n false (EvArrived h :: l))
| cs_act : forall m d n m' d' n' pre h p p' post o l new,
    cact h (m, d, n) p (m', d', n') p' new ->
    cstep (mk_csys m d (pre ++ (h, p) :: post) n o l) (mk_csys m' d' (pre ++ (h, p') :: post) n' o (new ++ l))
| cs_answer : forall m d n pre h r post o l,
    cstep (mk_csys m d (pre ++ (h, CDone r) :: post) n o l) (mk_csys m d (pre ++ post) n o (EvAnswered h r :: l))
| cs_drop : forall m d n pre h p post o l,
    cstep (mk_csys m d (pre ++ (h, p) :: post) n o l) (mk_csys m d (pre ++ post) n o l)
| cs_complete : forall m d ts l, cstep (mk_csys m d ts true false l) (mk_csys m d ts false true (EvCompleted :: l))
| cs_interrupt : forall m d ts n l, cstep (mk_csys m d ts n false l) (mk_csys m d ts n true (EvInterrupted :: l)).
Inductive csteps : csys -> csys -> Prop :=
| csteps_refl : forall x, csteps x x
| csteps_snoc : forall x y z, csteps x y -> cstep y z -> csteps x z.

(** When the server starts to listen, main.rs:752-779: the request has been built. *)
Definition cs_init (m : store) : csys := mk_csys m DWaiting [] false false [].
