From Coq Require Import Lia.
From Verif Require Import Base BaseFacts Json Url Params Request Metadata Dcql Response Session Client Builder Server.
From Verif Require Import Spec SpecObject SpecRequest SpecBuilder SpecSession StoreFacts PfBuilder.

(* --------------------------------------------------------------------- C41 *)
(** C41: statuses are compared by their rank; equality of statuses is equality of ranks, so it ignores what
    an outcome carries. *)
Lemma c41_rank_pf :
  forall a b : status,
    status_cmp a b = Some (N.compare (rank a) (rank b))
    /\ status_eqb a b = N.eqb (rank a) (rank b)
    /\ status_lt a b = N.ltb (rank a) (rank b).
Proof.
  intros a b. unfold status_lt.
  destruct a as [| | |[x|x|x]]; destruct b as [| | |[y|y|y]]; repeat split; reflexivity.
Qed.

Example c41_rank_ex :
  status_lt (Complete (OFailure "x")) (Complete (OSuccess JNull)) = true
  /\ status_eqb (Complete (OError "x")) (Complete (OError "y")) = true
  /\ status_lt ReceivedResponse (Complete (OError "x")) = true.
Proof. repeat split; reflexivity. Qed.

(** C41: the order is irreflexive, transitive, total and consistent with equality, and equality is an equivalence. *)
Lemma c41_laws_pf :
  forall a b c : status,
    status_lt a a = false
    /\ (status_lt a b = true -> status_lt b c = true -> status_lt a c = true)
    /\ (status_lt a b = true \/ status_eqb a b = true \/ status_lt b a = true)
    /\ (status_lt a b = true -> status_eqb a b = false /\ status_lt b a = false)
    /\ (status_cmp a b = Some Eq <-> status_eqb a b = true)
    /\ status_eqb a a = true /\ status_eqb a b = status_eqb b a
    /\ (status_eqb a b = true -> status_eqb b c = true -> status_eqb a c = true)
    /\ (status_eqb a b = true -> status_lt a c = status_lt b c /\ status_lt c a = status_lt c b).
Proof.
  intros a b c. pose proof (c41_rank_pf a b) as (C & E & L). pose proof (c41_rank_pf b a) as (_ & E' & L').
  pose proof (c41_rank_pf b c) as (_ & Ebc & Lbc). pose proof (c41_rank_pf a c) as (_ & Eac & Lac).
  pose proof (c41_rank_pf a a) as (_ & Ea & La). pose proof (c41_rank_pf c a) as (_ & _ & Lca). pose proof (c41_rank_pf c b) as (_ & _ & Lcb).
  rewrite C, E, E', L, L', Ebc, Lbc, Eac, Lac, Ea, La, Lca, Lcb.
  rewrite !N.ltb_lt, !N.eqb_eq, ?N.ltb_irrefl, ?N.eqb_refl.
  split; [reflexivity|]. split; [lia|]. split; [lia|]. split.
  { intros H. split; [apply N.eqb_neq; lia|apply N.ltb_ge; lia]. }
  split. { rewrite <- N.compare_eq_iff. split; congruence. }
  split; [reflexivity|]. split; [apply N.eqb_sym|]. split; [congruence|]. intros ->. auto.
Qed.

Example c41_laws_ex :
  status_lt SentRequestByReference SentRequest = true /\ status_lt SentRequest ReceivedResponse = true.
Proof. split; reflexivity. Qed.

(* --------------------------------------------------------------------- C34 *)
Definition represents (m : store) (f : amap) : Prop := ssorted m /\ forall u, st_get u m = f u.
Lemma op_refines o m f : represents m f ->
  represents (fst (apply_op o m)) (fst (apply_abs o f)) /\ snd (apply_op o m) = snd (apply_abs o f).
Proof.
  intros [S H]. destruct o as [s|u st|u|u]; unfold apply_op, apply_abs, initiate, update_status, get_session, remove_session.
  - cbn [fst snd]. split; [|reflexivity]. split; [now apply ssorted_insert|]. intros u. rewrite st_get_insert. unfold aset. now rewrite H.
  - rewrite <- H. destruct (st_get u m) as [s|]; cbn [fst snd]; [|split; [split; assumption|reflexivity]].
    split; [|reflexivity]. split; [now apply ssorted_insert|]. intros u'. rewrite st_get_insert. unfold aset, set_status. now rewrite H.
  - cbn [fst snd]. rewrite <- H. split; [split; assumption|]. destruct (st_get u m); reflexivity.
  - rewrite <- H. destruct (st_get u m) as [s|]; cbn [fst snd]; [|split; [split; assumption|reflexivity]].
    split; [|reflexivity]. split; [now apply ssorted_remove|]. intros u'. rewrite st_get_remove by assumption. unfold aset. now rewrite H.
Qed.

(** C34: any sequence of store operations gives the results, and leaves the content, that a map from session ids
    gives. *)
Lemma c34_map_pf :
  forall os : list op,
    snd (apply_ops os []) = snd (apply_abss os aempty)
    /\ forall u, st_get u (fst (apply_ops os [])) = fst (apply_abss os aempty) u.
Proof.
  intros os. assert (G : forall m f, represents m f -> snd (apply_ops os m) = snd (apply_abss os f)
     /\ represents (fst (apply_ops os m)) (fst (apply_abss os f))).
  { induction os as [|o os IH]; intros m f R; [split; [reflexivity|exact R]|]. cbn [apply_ops apply_abss].
    destruct (op_refines o m f R) as [R1 E1]. destruct (apply_op o m) as [m1 r1], (apply_abs o f) as [f1 q1]. cbn [fst snd] in *. subst q1.
    destruct (IH m1 f1 R1) as [E2 R2]. destruct (apply_ops os m1), (apply_abss os f1). cbn [fst snd] in *. subst. auto. }
  destruct (G [] aempty) as [E [_ R]]; [split; [constructor|reflexivity]|]. auto.
Qed.

Definition toy_aro : aro := match aro_of_obj simple_parse PfRequest.sample_request with Ok a => a | Err _ => mk_aro [] None None DcApi RtVpToken (toy_url "") "" end.
Definition toy_session (u : uuid) : session := mk_session u SentRequestByReference "h.p.s" toy_aro toy_query.
Example c34_map_ex :
  snd (apply_ops [OpInitiate (toy_session 3%N); OpInitiate (toy_session 1%N); OpUpdate 2%N SentRequest; OpUpdate 3%N SentRequest; OpRemove 1%N; OpGet 1%N; OpGet 3%N] [])
  = [RNone (Ok tt); RNone (Ok tt); RNone (Err "session not found"); RNone (Ok tt); RNone (Ok tt);
     RSession (Err "session not found"); RSession (Ok (mk_session 3%N SentRequest "h.p.s" toy_aro toy_query))].
Proof. reflexivity. Qed.

(** C34: an operation that finds the lock held is an error and changes nothing. *)
Lemma c34_contended_pf :
  forall (s : session) (u : uuid) (st : status) (m : store),
    initiate true s m = (m, Err "try_lock") /\ update_status true u st m = (m, Err "try_lock")
    /\ get_session true u m = Err "try_lock" /\ remove_session true u m = (m, Err "try_lock").
Proof. intros. repeat split. Qed.

(* --------------------------------------------------------------------- C35 *)
(** C35: retrieving returns the JWT stored for the session and an error for an unknown session; it changes
    nothing but the status of a session not yet sent, which becomes sent. *)
Lemma c35_retrieve_pf :
  forall (u : uuid) (m : store),
    match st_get u m with
    | None => exists e, retrieve u m = (m, Err e)
    | Some s =>
        exists m', retrieve u m = (m', Ok (s_jwt s))
        /\ (forall u', u' <> u -> st_get u' m' = st_get u' m)
        /\ exists s', st_get u m' = Some s' /\ same_request s s'
           /\ s_status s' = match s_status s with SentRequestByReference => SentRequest | st => st end
           /\ (progress (s_status s) <= progress (s_status s'))%N
    end.
Proof.
  intros u m. unfold retrieve, run_plain, retrieve_code. cbn [run]. unfold get_session. destruct (st_get u m) as [s|] eqn:E; cbn [ok_or].
  - destruct (status_lt (s_status s) SentRequest) eqn:L; cbn [run].
    + unfold update_status. rewrite E. cbn [run rmap]. eexists. split; [reflexivity|]. split.
      { intros u' N0. rewrite st_get_insert. destruct (N.eqb_spec u' u); [contradiction|reflexivity]. }
      exists (set_status s SentRequest). split; [now rewrite st_get_insert, N.eqb_refl|]. split; [repeat split|]. cbn [s_status set_status].
      rewrite (proj2 (proj2 (c41_rank_pf _ _))) in L. destruct (s_status s) as [| | |[x|x|x]]; try discriminate L. split; [reflexivity|]. cbn. lia.
    + eexists. split; [reflexivity|]. split; [reflexivity|]. exists s. split; [exact E|]. split; [repeat split|].
      rewrite (proj2 (proj2 (c41_rank_pf _ _))) in L. destruct (s_status s) as [| | |[x|x|x]]; try discriminate L; split; try reflexivity; lia.
  - cbn [run]. eauto.
Qed.

Example c35_retrieve_ex :
  retrieve 3%N [(3%N, toy_session 3%N)] = ([(3%N, set_status (toy_session 3%N) SentRequest)], Ok "h.p.s").
Proof. reflexivity. Qed.

(** C35: retrieving again returns the same and changes nothing more. *)
Lemma c35_idempotent_pf :
  forall (u : uuid) (m m' : store) (jwt : string),
    retrieve u m = (m', Ok jwt) -> exists m'', retrieve u m' = (m'', Ok jwt) /\ forall u', st_get u' m'' = st_get u' m'.
Proof.
  intros u m m' jwt H. pose proof (c35_retrieve_pf u m) as R. destruct (st_get u m) as [s|].
  2: { destruct R as (e & R). congruence. }
  destruct R as (m1 & R & O & s' & G & S & T & _). rewrite R in H. injection H as <- <-.
  pose proof (c35_retrieve_pf u m1) as R1. rewrite G in R1. destruct R1 as (m2 & R1 & O1 & s2 & G1 & S1 & T1 & _).
  exists m2. destruct S as (A & B & C & D). rewrite R1, B. split; [reflexivity|]. intros u'.
  destruct (N.eqb_spec u' u) as [->|N0]; [|now apply O1]. rewrite G, G1. f_equal.
  destruct S1 as (A1 & B1 & C1 & D1). assert (s_status s2 = s_status s').
  { rewrite T1, T. destruct (s_status s) as [| | |]; reflexivity. }
  destruct s2, s'. cbn in *. congruence.
Qed.

Example c35_idempotent_ex :
  retrieve 3%N (fst (retrieve 3%N [(3%N, toy_session 3%N)])) = (fst (retrieve 3%N [(3%N, toy_session 3%N)]), Ok "h.p.s").
Proof. reflexivity. Qed.

(* --------------------------------------------------------------------- C40 *)
(** C40: a response for an unknown session is an error and no validator runs; otherwise the validator is called
    once, with the stored session and the response, and its outcome is the new status, whatever the status was;
    nothing else changes. *)
Lemma c40_verify_response_pf :
  forall (u : uuid) (r : auth_response) (validator : session -> auth_response -> outcome) (m : store),
    match st_get u m with
    | None => exists e, verify_response u r validator m = (m, [], Err e)
    | Some s =>
        exists m', verify_response u r validator m = (m', [(s, r)], Ok tt)
        /\ (forall u', u' <> u -> st_get u' m' = st_get u' m)
        /\ exists s', st_get u m' = Some s' /\ same_request s s' /\ s_status s' = Complete (validator s r)
    end.
Proof.
  intros u r v m. unfold verify_response, verify_code. cbn [run]. unfold get_session. destruct (st_get u m) as [s|] eqn:E; cbn [ok_or run]; [|eauto].
  unfold update_status. rewrite E. cbn [run]. eexists. split; [reflexivity|]. split.
  { intros u' N0. rewrite st_get_insert. destruct (N.eqb_spec u' u); [contradiction|reflexivity]. }
  exists (set_status s (Complete (v s r))). split; [now rewrite st_get_insert, N.eqb_refl|]. split; [repeat split|reflexivity].
Qed.

Example c40_verify_response_ex :
  verify_response 3%N (Jwt "j") (fun s r => OFailure (s_jwt s)) [(3%N, set_status (toy_session 3%N) (Complete (OSuccess JNull)))]
  = ([(3%N, set_status (toy_session 3%N) (Complete (OFailure "h.p.s")))], [(set_status (toy_session 3%N) (Complete (OSuccess JNull)), Jwt "j")], Ok tt).
Proof. reflexivity. Qed.

(** C40: polling returns the stored status and changes nothing. *)
Lemma c40_poll_pf :
  forall (u : uuid) (m : store),
    poll_status u m = (m, match st_get u m with Some s => Ok (s_status s) | None => Err "session not found" end).
Proof. intros u m. unfold poll_status, run_plain, poll_code. cbn [run]. unfold get_session. destruct (st_get u m); reflexivity. Qed.

Example c40_poll_ex : poll_status 3%N [(3%N, toy_session 3%N)] = ([(3%N, toy_session 3%N)], Ok SentRequestByReference).
Proof. reflexivity. Qed.
