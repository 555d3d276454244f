(** The command line verifier behind its web server: /repo/examples/cli-verifier/main.rs:194-223,304-311.  The web framework
    is axum 0.7 with tower-http 0.6 (Cargo.toml:46,65-66, external), as in ExWeb.v. *)
From Verif Require Import Base Json Url Response Session Server ExVerifier ExHttp ExWeb ExCli ExConsole.

(** Where a request goes: to one of the two handlers, or back with a status code. *)
Inductive cdest := CTo (h : creq) | CRefuse (status : N).
(** The routes of [create_router], main.rs:304-311, with the extractors of main.rs:194-197 (path) and 220-224 (path, then body).  A GET
    route also answers HEAD; CORS (main.rs:309) answers OPTIONS. *)
Definition cli_dispatch (q : hrequest) : cdest :=
  let m := hq_method q in
  let p := hq_path q in
  if String.eqb m "OPTIONS" then CRefuse 200
  else match segment "/request/" p with
  | Some seg =>
      if is_get m then match path_param seg with Some sid => CTo (CFetch sid) | None => CRefuse 400 end
      else CRefuse 405
  | None => match segment "/response/" p with
  | Some seg =>
      if String.eqb m "POST" then
        match path_param seg with
        | Some sid => if oversized q then CRefuse 413 else CTo (CResponse sid (hq_body q))
        | None => CRefuse 400
        end
      else CRefuse 405
  | None => CRefuse 404
  end end.

(** What happens, by HTTP request, or to the program.  An answer is as in ExWeb.v, except that an error has a line of text for
    a body (main.rs:278-298). *)
Inductive kevent := KArrived | KDoes (e : event) | KShown (d : display) | KAnswer (a : wanswer).
Inductive kentry := KFor (q : hrequest) (e : kevent) | KCompleted | KInterrupted.
Definition entry_for (q : hrequest) (e : cevent) : kentry :=
  match e with
  | EvArrived _ => KFor q KArrived
  | EvDoes _ e => KFor q (KDoes e)
  | EvShown _ d => KFor q (KShown d)
  | EvAnswered _ r => KFor q (KAnswer (wire q (answer_of r)))
  | EvCompleted => KCompleted
  | EvInterrupted => KInterrupted
  end.

(** The running program, as in ExConsole.v (main.rs:752-799), with HTTP requests. *)
Record ksys := mk_ksys {
  ks_store : store;
  ks_display : display;
  ks_tasks : list (hrequest * cprog);
  ks_notified : bool;
  ks_over : bool;
  ks_log : list kentry
}.
Inductive kstep : ksys -> ksys -> Prop :=
| k_start : forall m d ts n l q h, cli_dispatch q = CTo h ->
    kstep (mk_ksys m d ts n false l) (mk_ksys m d ((q, chandler h) :: ts) n false (KFor q KArrived :: l))
| k_refuse : forall m d ts n l q code, cli_dispatch q = CRefuse code ->
    kstep (mk_ksys m d ts n false l) (mk_ksys m d ts n false (KFor q (KAnswer (code, CNone)) :: l))
| k_act : forall m d n m' d' n' pre q h p p' post o l new,
    cli_dispatch q = CTo h -> cact h (m, d, n) p (m', d', n') p' new ->
    kstep (mk_ksys m d (pre ++ (q, p) :: post) n o l) (mk_ksys m' d' (pre ++ (q, p') :: post) n' o (map (entry_for q) new ++ l))
| k_answer : forall m d n pre q r post o l,
    kstep (mk_ksys m d (pre ++ (q, CDone r) :: post) n o l)
          (mk_ksys m d (pre ++ post) n o (KFor q (KAnswer (wire q (answer_of r))) :: l))
| k_drop : forall m d n pre q p post o l,
    kstep (mk_ksys m d (pre ++ (q, p) :: post) n o l) (mk_ksys m d (pre ++ post) n o l)
| k_complete : forall m d ts l, kstep (mk_ksys m d ts true false l) (mk_ksys m d ts false true (KCompleted :: l))
| k_interrupt : forall m d ts n l, kstep (mk_ksys m d ts n false l) (mk_ksys m d ts n true (KInterrupted :: l)).
Inductive ksteps : ksys -> ksys -> Prop :=
| ksteps_refl : forall x, ksteps x x
| ksteps_snoc : forall x y z, ksteps x y -> kstep y z -> ksteps x z.
Definition ks_init (m : store) : ksys := mk_ksys m DWaiting [] false false [].
