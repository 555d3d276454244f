From Coq Require Import Lia.
From Verif Require Import Base BaseFacts Json Url Params Request Metadata Dcql Response Session Client Builder Server.
From Verif Require Import Spec SpecObject SpecRequest SpecBuilder SpecSession StoreFacts PfBuilder PfSession.

(* ------------------------------------------------------ programs in general *)
(** All store operations of [p] address [u], and created sessions have an initial status. *)
Fixpoint targets {A} (u : uuid) (p : prog A) : Prop :=
  match p with
  | Done _ => True
  | Initiate s k => s_uuid s = u /\ initial_status (s_status s) /\ forall x, targets u (k x)
  | Update u' _ k => u' = u /\ forall x, targets u (k x)
  | Get u' k => u' = u /\ forall x, targets u (k x)
  | Remove u' k => u' = u /\ forall x, targets u (k x)
  | Validate _ _ k => forall o, targets u (k o)
  end.
(** The history [l] of call [c] explains what it does next. *)
Fixpoint just (c : call) (l : list (call * event)) (p : prog answer) : Prop :=
  match p with
  | Done (Ok (AJwt j)) => exists s0, In (c, EvGet (target c) (Ok s0)) l /\ s_jwt s0 = j
  | Done (Ok (AStatus st)) => exists s0, In (c, EvGet (target c) (Ok s0)) l /\ s_status s0 = st
  | Done _ => True
  | Initiate _ k => forall x, just c l (k x)
  | Update u st k =>
      ((st = SentRequest /\ c = CRetrieve u /\ exists s0, In (c, EvGet u (Ok s0)) l /\ s_status s0 = SentRequestByReference)
       \/ (exists o s0 r, st = Complete o /\ c = CVerify u r /\ validated u o s0 r l))
      /\ forall x, just c l (k x)
  | Get u k => forall x, just c ((c, EvGet u x) :: l) (k x)
  | Remove _ k => forall x, just c l (k x)
  | Validate s r k => forall o, just c ((c, EvValidate s r o) :: l) (k o)
  end.
Lemma validated_mono u o s r l l' : incl l l' -> validated u o s r l -> validated u o s r l'.
Proof. intros I [H1 H2]. split; auto. Qed.
Lemma just_mono c p : forall l l', incl l l' -> just c l p -> just c l' p.
Proof.
  induction p as [r|s k IH|u st k IH|u k IH|u k IH|s r k IH]; intros l l' I; cbn [just].
  - destruct r as [[d|u j|j|st|]|e]; auto; intros (s0 & H & E); eauto.
  - intros H x. eapply IH; eauto.
  - intros [H1 H2]. split; [|intros x; eapply IH; eauto].
    destruct H1 as [(E & C & s0 & H & E')|(o & s0 & r & E & C & V)]; [left; eauto 10|].
    right. exists o, s0, r. split; [exact E|]. split; [exact C|]. now apply (validated_mono _ _ _ _ l).
  - intros H x. eapply IH; [|apply H]. intros y [Hy|Hy]; [now left|right; auto].
  - intros H x. eapply IH; eauto.
  - intros H x. eapply IH; [|apply H]. intros y [Hy|Hy]; [now left|right; auto].
Qed.

Section S.
Variable up : string -> option url.
Notation step := (step up).
Notation steps := (steps up).
Notation reachable := (reachable up).
Notation code := (code up).

Lemma prepare_initial b u wm s d : rb_prepare up b u wm = Ok (s, d) -> s_uuid s = u /\ initial_status (s_status s).
Proof.
  intros H. apply prepare_inv in H as (U & _ & _ & _ & _ & _ & ind & ep & C & _). split; [exact U|]. unfold conveyed in C. unfold initial_status.
  destruct (v_byref (rb_verifier b)); [destruct C as (_ & _ & _ & C)|destruct C as [_ C]]; auto.
Qed.
Lemma prepare_dc_initial b u s : rb_prepare_dc up b u = Ok s -> s_uuid s = u /\ initial_status (s_status s).
Proof.
  unfold rb_prepare_dc. intros E. apply rbind_ok in E as ([q ps] & _ & E). apply rbind_ok in E as (a & _ & E).
  apply rbind_ok in E as (j & _ & E). injection E as <-. cbn. unfold initial_status. auto.
Qed.
Lemma code_targets c : targets (target c) (code c).
Proof.
  destruct c as [b u wm|b u|u|u r|u|u]; cbn [code target].
  - unfold Server.code, build_code. destruct (rb_prepare up b u wm) as [[s d]|e] eqn:E; cbn; [|exact I].
    apply prepare_initial in E as [U S]. auto.
  - unfold Server.code, build_dc_code. destruct (rb_prepare_dc up b u) as [s|e] eqn:E; cbn; [|exact I].
    apply prepare_dc_initial in E as [U S]. auto.
  - cbn. split; [reflexivity|]. intros [s|e]; cbn; [|exact I]. destruct (status_lt (s_status s) SentRequest); cbn; auto.
  - cbn. split; [reflexivity|]. intros [s|e]; cbn; auto.
  - cbn. auto.
  - cbn. auto.
Qed.
Lemma lt_sent st : status_lt st SentRequest = true -> st = SentRequestByReference.
Proof. destruct st as [| | |[x|x|x]]; cbn; congruence. Qed.
Lemma code_just c l : just c l (code c).
Proof.
  apply (just_mono c (code c) []); [intros x []|].
  destruct c as [b u wm|b u|u|u r|u|u]; unfold Server.code.
  - unfold build_code. destruct (rb_prepare up b u wm) as [[s d]|e]; cbn; [|exact I]. intros [[]|e]; exact I.
  - unfold build_dc_code. destruct (rb_prepare_dc up b u) as [s|e]; cbn; [|exact I]. intros [[]|e]; exact I.
  - cbn. intros [s|e]; cbn; [|exact I]. destruct (status_lt (s_status s) SentRequest) eqn:L; cbn.
    + apply lt_sent in L. split; [left; split; [reflexivity|]; split; [reflexivity|]; eauto|]. intros [[]|e]; cbn; eauto.
    + eauto.
  - cbn. intros [s|e]; cbn; [|exact I]. intros o. split; [|intros [[]|e]; exact I].
    right. exists o, s, r. split; [reflexivity|]. split; [reflexivity|]. split; cbn; auto.
  - cbn. intros [s|e]; cbn; eauto.
  - cbn. intros [[]|e]; exact I.
Qed.

(* ----------------------------------------------------------------- actions *)
Lemma update_get cont u st m m' x u' : update_status cont u st m = (m', x) ->
  st_get u' m' = match x with
                 | Ok _ => if N.eqb u' u then option_map (fun s => set_status s st) (st_get u m) else st_get u' m
                 | Err _ => st_get u' m end
  /\ (x = Ok tt -> exists s, st_get u m = Some s).
Proof.
  unfold update_status. destruct cont; [intros H; injection H as <- <-; split; [reflexivity|discriminate]|].
  destruct (st_get u m) as [s|] eqn:E; intros H; injection H as <- <-.
  - rewrite st_get_insert. cbn. destruct (N.eqb u' u); eauto.
  - split; [reflexivity|discriminate].
Qed.
Lemma initiate_get cont s m m' x u' : initiate cont s m = (m', x) ->
  st_get u' m' = match x with Ok _ => if N.eqb u' (s_uuid s) then Some s else st_get u' m | Err _ => st_get u' m end.
Proof.
  unfold initiate. destruct cont; intros H; injection H as <- <-; [reflexivity|]. apply st_get_insert.
Qed.
Lemma remove_get cont u m m' x u' : ssorted m -> remove_session cont u m = (m', x) ->
  st_get u' m' = match x with Ok _ => if N.eqb u' u then None else st_get u' m | Err _ => st_get u' m end
  /\ (x = Ok tt -> exists s, st_get u m = Some s).
Proof.
  intros S. unfold remove_session. destruct cont; [intros H; injection H as <- <-; split; [reflexivity|discriminate]|].
  destruct (st_get u m) as [s|] eqn:E; intros H; injection H as <- <-.
  - rewrite st_get_remove by exact S. eauto.
  - split; [reflexivity|discriminate].
Qed.
Lemma act_sorted {A} m (p : prog A) m' p' e : act m p m' p' e -> ssorted m -> ssorted m'.
Proof.
  intros H S. destruct H as [m s k c m' x E|m u st k c m' x E|m u k c|m u k c m' x E|m s r k o]; try exact S.
  - unfold initiate in E. destruct c; injection E as <- _; [exact S|now apply ssorted_insert].
  - unfold update_status in E. destruct c; [injection E as <- _; exact S|]. destruct (st_get u m); injection E as <- _; [now apply ssorted_insert|exact S].
  - unfold remove_session in E. destruct c; [injection E as <- _; exact S|]. destruct (st_get u m); injection E as <- _; [now apply ssorted_remove|exact S].
Qed.
Lemma act_targets {A} m (p : prog A) m' p' e u : act m p m' p' e -> targets u p -> targets u p'.
Proof. intros H T. destruct H; cbn in T; try (apply T). Qed.
Lemma act_other {A} m (p : prog A) m' p' e u u' : ssorted m -> act m p m' p' e -> targets u p -> u' <> u -> st_get u' m' = st_get u' m.
Proof.
  intros S H T N0. destruct H as [m s k c m' x E|m v st k c m' x E|m v k c|m v k c m' x E|m s r k o]; try reflexivity; cbn in T.
  - destruct T as [<- _]. rewrite (initiate_get _ _ _ _ _ u' E). destruct x; [|reflexivity]. destruct (N.eqb_spec u' (s_uuid s)); [contradiction|reflexivity].
  - destruct T as [-> _]. rewrite (proj1 (update_get _ _ _ _ _ _ u' E)). destruct x; [|reflexivity]. destruct (N.eqb_spec u' u); [contradiction|reflexivity].
  - destruct T as [-> _]. rewrite (proj1 (remove_get _ _ _ _ _ u' S E)). destruct x; [|reflexivity]. destruct (N.eqb_spec u' u); [contradiction|reflexivity].
Qed.

(* --------------------------------------------------------------- invariant *)
Record inv (y : sys) : Prop := {
  inv_sorted : ssorted (sy_store y);
  inv_tasks : forall c p, In (c, p) (sy_tasks y) -> targets (target c) p /\ just c (sy_log y) p;
  inv_stored : forall u s, st_get u (sy_store y) = Some s ->
    exists s1, creates u s1 (sy_log y) /\ same_request s1 s;
  inv_got : forall c u s, In (c, EvGet u (Ok s)) (sy_log y) ->
    exists s1, creates u s1 (sy_log y) /\ same_request s1 s;
  inv_complete : forall u s o, st_get u (sy_store y) = Some s -> s_status s = Complete o ->
    exists newer older r s0, sy_log y = newer ++ (CVerify u r, EvUpdate u (Complete o) (Ok tt)) :: older /\ validated u o s0 r older;
  inv_got_complete : forall c u s o, In (c, EvGet u (Ok s)) (sy_log y) -> s_status s = Complete o ->
    exists newer older r s0, sy_log y = newer ++ (CVerify u r, EvUpdate u (Complete o) (Ok tt)) :: older /\ validated u o s0 r older
}.

Lemma creates_cons u s x l : creates u s l -> creates u s (x :: l).
Proof. intros [U (c & H)]. split; [exact U|]. exists c. now right. Qed.
Lemma same_refl s : same_request s s.
Proof. repeat split. Qed.
Lemma same_trans a b c : same_request a b -> same_request b c -> same_request a c.
Proof. unfold same_request. intuition congruence. Qed.
Lemma same_sym a b : same_request a b -> same_request b a.
Proof. unfold same_request. intuition congruence. Qed.
Lemma in_mid {A} (x y : A) pre post : In y (pre ++ x :: post) <-> y = x \/ In y (pre ++ post).
Proof. rewrite !in_app_iff. cbn. intuition congruence. Qed.

Lemma inv_step a b : step a b -> inv a -> inv b.
Proof.
  intros H [S T D G C GC]. destruct H as [m ts l c|m m' pre c p p' post l e Ha|m pre c r post l|m pre c p post l]; cbn [sy_store sy_tasks sy_log] in *.
  - constructor; cbn [sy_store sy_tasks sy_log]; try assumption.
    intros c' p' [E|H]; [|auto]. injection E as <- <-. split; [apply code_targets|apply code_just].
  - assert (Tp : targets (target c) p /\ just c l p) by (apply T, in_mid; auto). destruct Tp as [Tp Jp].
    assert (Wk : forall u o, (exists newer older r s0, l = newer ++ (CVerify u r, EvUpdate u (Complete o) (Ok tt)) :: older /\ validated u o s0 r older) ->
        exists newer older r s0, (c, e) :: l = newer ++ (CVerify u r, EvUpdate u (Complete o) (Ok tt)) :: older /\ validated u o s0 r older).
    { intros u o (n & od & r & s0 & -> & V). exists ((c, e) :: n), od, r, s0. auto. }
    assert (Wc : forall u s, (exists s1, creates u s1 l /\ same_request s1 s) -> exists s1, creates u s1 ((c, e) :: l) /\ same_request s1 s).
    { intros u s (s1 & H1 & H2). exists s1. split; [now apply creates_cons|exact H2]. }
    constructor; cbn [sy_store sy_tasks sy_log].
    + eapply act_sorted; eassumption.
    + intros c' q Hq. apply in_mid in Hq as [E|Hq].
      * injection E as -> ->. split; [eapply act_targets; eassumption|].
        destruct Ha as [m s k co m' x E|m v st k co m' x E|m v k co|m v k co m' x E|m s r k o]; cbn in Jp.
        -- eapply just_mono; [|apply Jp]. intros z Hz. now right.
        -- eapply just_mono; [|apply Jp]. intros z Hz. now right.
        -- apply Jp.
        -- eapply just_mono; [|apply Jp]. intros z Hz. now right.
        -- apply Jp.
      * destruct (T c' q) as [T1 T2]; [apply in_mid; auto|]. split; [exact T1|]. eapply just_mono; [|exact T2]. intros z Hz. now right.
    + intros u s Hs. destruct Ha as [m s1 k co m' x E|m v st k co m' x E|m v k co|m v k co m' x E|m s1 r k o].
      * rewrite (initiate_get _ _ _ _ _ u E) in Hs. destruct x as [[]|]; [|now apply Wc, D]. destruct (N.eqb_spec u (s_uuid s1)) as [->|]; [|now apply Wc, D].
        injection Hs as ->. exists s. split; [|apply same_refl]. split; [reflexivity|]. exists c. now left.
      * rewrite (proj1 (update_get _ _ _ _ _ _ u E)) in Hs. destruct x as [[]|]; [|now apply Wc, D]. destruct (N.eqb_spec u v) as [->|]; [|now apply Wc, D].
        destruct (st_get v m) as [s2|] eqn:E2; [|discriminate]. cbn in Hs. injection Hs as <-. destruct (Wc _ _ (D v s2 E2)) as (s3 & H1 & H2). exists s3. split; [exact H1|]. exact H2.
      * now apply Wc, D.
      * rewrite (proj1 (remove_get _ _ _ _ _ u S E)) in Hs. destruct x as [[]|]; [|now apply Wc, D]. destruct (N.eqb_spec u v) as [->|]; [discriminate|]. now apply Wc, D.
      * now apply Wc, D.
    + intros c' u s [E|H]; [|now apply Wc, (G c')]. injection E as -> E.
      destruct Ha as [m s1 k co m' x E1|m v st k co m' x E1|m v k co|m v k co m' x E1|m s1 r k o]; try discriminate E.
      injection E as -> Eg. unfold get_session in Eg. destruct co; [discriminate|]. apply ok_or_ok in Eg. now apply Wc, D.
    + intros u s o Hs Ho. destruct Ha as [m s1 k co m' x E|m v st k co m' x E|m v k co|m v k co m' x E|m s1 r k o1].
      * rewrite (initiate_get _ _ _ _ _ u E) in Hs. destruct x as [[]|]; [|eapply Wk, C; eassumption]. destruct (N.eqb_spec u (s_uuid s1)) as [->|]; [|eapply Wk, C; eassumption].
        injection Hs as ->. cbn in Tp. destruct Tp as (_ & [I|I] & _); congruence.
      * rewrite (proj1 (update_get _ _ _ _ _ _ u E)) in Hs. destruct x as [[]|]; [|eapply Wk, C; eassumption]. destruct (N.eqb_spec u v) as [->|]; [|eapply Wk, C; eassumption].
        destruct (st_get v m) as [s2|] eqn:E2; [|discriminate]. cbn in Hs. injection Hs as <-. cbn in Ho. subst st.
        cbn in Jp. destruct Jp as [[(Ab & _)|(o' & s0 & r & Eo & -> & V)] _]; [discriminate|]. injection Eo as <-.
        exists [], l, r, s0. split; [reflexivity|exact V].
      * eapply Wk, C; eassumption.
      * rewrite (proj1 (remove_get _ _ _ _ _ u S E)) in Hs. destruct x as [[]|]; [|eapply Wk, C; eassumption]. destruct (N.eqb_spec u v) as [->|]; [discriminate|]. eapply Wk, C; eassumption.
      * eapply Wk, C; eassumption.
    + intros c' u s o [E|H] Ho; [|eapply Wk, GC; eassumption]. injection E as -> E.
      destruct Ha as [m s1 k co m' x E1|m v st k co m' x E1|m v k co|m v k co m' x E1|m s1 r k o1]; try discriminate E.
      injection E as -> Eg. unfold get_session in Eg. destruct co; [discriminate|]. apply ok_or_ok in Eg. eapply Wk, C; eassumption.
  - assert (Wk : forall u o, (exists newer older r s0, l = newer ++ (CVerify u r, EvUpdate u (Complete o) (Ok tt)) :: older /\ validated u o s0 r older) ->
        exists newer older r' s0, (c, EvReturn r) :: l = newer ++ (CVerify u r', EvUpdate u (Complete o) (Ok tt)) :: older /\ validated u o s0 r' older).
    { intros u o (n & od & r' & s0 & -> & V). exists ((c, EvReturn r) :: n), od, r', s0. auto. }
    constructor; cbn [sy_store sy_tasks sy_log].
    + exact S.
    + intros c' q Hq. destruct (T c' q) as [T1 T2]; [apply in_mid; auto|]. split; [exact T1|]. eapply just_mono; [|exact T2]. intros z Hz. now right.
    + intros u s Hs. destruct (D u s Hs) as (s1 & H1 & H2). exists s1. split; [now apply creates_cons|exact H2].
    + intros c' u s [E|H]; [discriminate|]. destruct (G c' u s H) as (s1 & H1 & H2). exists s1. split; [now apply creates_cons|exact H2].
    + intros u s o Hs Ho. eapply Wk, C; eassumption.
    + intros c' u s o [E|H] Ho; [discriminate|]. eapply Wk, GC; eassumption.
  - constructor; cbn [sy_store sy_tasks sy_log]; try assumption. intros c' q Hq. apply T, in_mid. auto.
Qed.
Lemma inv_reachable y : reachable y -> inv y.
Proof.
  unfold Server.reachable. remember sys_init as a. intros H. induction H as [a|a b c H IH S]; subst.
  - constructor; cbn; try (intros; contradiction); try (intros; discriminate). constructor.
  - eapply inv_step; [eassumption|]. now apply IH.
Qed.
Lemma steps_trans a b c : steps a b -> steps b c -> steps a c.
Proof. intros H1 H2. induction H2; [exact H1|]. eapply steps_snoc; [apply IHsteps, H1|eassumption]. Qed.
End S.

(* ----------------------------------------------------------- run alone, C40 *)
Lemma run_alone up cont v c : forall p m ts l m' calls x,
  run cont v p m = (m', calls, x) ->
  exists evs, steps up (mk_sys m ((c, p) :: ts) l) (mk_sys m' ts ((c, EvReturn x) :: evs ++ l))
    /\ validator_calls evs = calls /\ (forall e, In e evs -> fst e = c)
    /\ (forall s r o, In (c, EvValidate s r o) evs -> o = v s r).
Proof.
  assert (G : forall p p' m m1 m' ts l calls x e,
     act m p m1 p' e ->
     (exists evs, steps up (mk_sys m1 ((c, p') :: ts) ((c, e) :: l)) (mk_sys m' ts ((c, EvReturn x) :: evs ++ (c, e) :: l))
        /\ validator_calls evs = calls /\ (forall z, In z evs -> fst z = c) /\ (forall s r o, In (c, EvValidate s r o) evs -> o = v s r)) ->
     (forall s r o, e = EvValidate s r o -> o = v s r) ->
     exists evs, steps up (mk_sys m ((c, p) :: ts) l) (mk_sys m' ts ((c, EvReturn x) :: evs ++ l))
        /\ validator_calls evs = match e with EvValidate s r _ => (s, r) :: calls | _ => calls end
        /\ (forall z, In z evs -> fst z = c) /\ (forall s r o, In (c, EvValidate s r o) evs -> o = v s r)).
  { intros p p' m m1 m' ts l calls x e A (evs & S & C & F & V) Ve. exists (evs ++ [(c, e)]). split.
    - rewrite <- app_assoc. eapply steps_trans; [|exact S]. eapply steps_snoc; [apply steps_refl|]. exact (step_act up m m1 [] c p p' ts l e A).
    - split; [|split].
      + unfold validator_calls in *. rewrite rev_app_distr. cbn. rewrite C. destruct e; reflexivity.
      + intros z Hz. apply in_app_iff in Hz as [Hz|[<-|[]]]; auto.
      + intros s r o Hz. apply in_app_iff in Hz as [Hz|[Hz|[]]]; [eauto|]. injection Hz as ->. auto. }
  induction p as [r|s k IH|u st k IH|u k IH|u k IH|s r k IH]; intros m ts l m' calls x; cbn [run].
  - intros H. injection H as <- <- <-. exists []. split; [|repeat split; intros; contradiction].
    eapply steps_snoc; [apply steps_refl|]. exact (step_return up m [] c r ts l).
  - destruct (initiate cont s m) as [m1 y] eqn:E. intros H. eapply (G _ _ _ _ _ _ _ _ _ (EvInitiate s y)); [eapply act_initiate; exact E|apply (IH y _ _ _ _ _ _ H)|discriminate].
  - destruct (update_status cont u st m) as [m1 y] eqn:E. intros H. eapply (G _ _ _ _ _ _ _ _ _ (EvUpdate u st y)); [eapply act_update; exact E|apply (IH y _ _ _ _ _ _ H)|discriminate].
  - intros H. eapply (G _ _ _ _ _ _ _ _ _ (EvGet u (get_session cont u m))); [apply act_get|apply (IH _ _ _ _ _ _ _ H)|discriminate].
  - destruct (remove_session cont u m) as [m1 y] eqn:E. intros H. eapply (G _ _ _ _ _ _ _ _ _ (EvRemove u y)); [eapply act_remove; exact E|apply (IH y _ _ _ _ _ _ H)|discriminate].
  - destruct (run cont v (k (v s r)) m) as [[m1 cs] y] eqn:E. intros H. injection H as <- <- <-.
    apply (G (Validate s r k) (k (v s r)) m m m1 ts l cs y (EvValidate s r (v s r))); [apply act_validate|apply (IH _ _ _ _ _ _ _ E)|].
    intros s2 r2 o2 X. now injection X as <- <- <-.
Qed.

(** C40: a call that runs without interference is an execution of the concurrent system, with the same result,
    store and validator calls; so the properties of interleavings hold for it too. *)
Lemma c40_alone_pf :
  forall (url_parse : string -> option url) (contended : bool) (validator : session -> auth_response -> outcome)
    (c : call) (m m' : store) (ts : list (call * prog answer)) (l : list (call * event))
    (calls : list (session * auth_response)) (x : res answer),
    run contended validator (code url_parse c) m = (m', calls, x) ->
    exists evs,
      steps url_parse (mk_sys m ts l) (mk_sys m' ts ((c, EvReturn x) :: evs ++ l))
      /\ validator_calls evs = calls /\ (forall e, In e evs -> fst e = c)
      /\ (forall s r o, In (c, EvValidate s r o) evs -> o = validator s r).
Proof.
  intros up cont v c m m' ts l calls x H. destruct (run_alone up cont v c _ m ts l _ _ _ H) as (evs & S & R). exists evs. split; [|exact R].
  eapply steps_trans; [|exact S]. eapply steps_snoc; [apply steps_refl|apply step_start].
Qed.

Example c40_alone_ex :
  run false (fun _ _ => OFailure "no") (code simple_parse (CVerify 3%N (Jwt "j"))) [(3%N, toy_session 3%N)]
  = ([(3%N, set_status (toy_session 3%N) (Complete (OFailure "no")))], [(toy_session 3%N, Jwt "j")], Ok ANothing).
Proof. reflexivity. Qed.

(* --------------------------------------------------------------------- C36 *)
(** C36: in any interleaving, a step that changes what is stored for a session is an action of a call about that
    session. *)
Lemma c36_isolated_pf :
  forall (url_parse : string -> option url) (a b : sys) (u : uuid),
    reachable url_parse a -> step url_parse a b ->
    st_get u (sy_store b) = st_get u (sy_store a)
    \/ exists c e, sy_log b = (c, e) :: sy_log a /\ target c = u.
Proof.
  intros up a b u R H. apply inv_reachable in R as [S T _ _ _ _].
  destruct H as [m ts l c|m m' pre c p p' post l e Ha|m pre c r post l|m pre c p post l]; cbn [sy_store sy_tasks sy_log] in *; auto.
  destruct (N.eq_dec (target c) u) as [E|N0]; [right; eauto|]. left.
  eapply act_other; [exact S|exact Ha|apply (T c p), in_mid; auto|congruence].
Qed.

(** An execution for the examples: build session 7, by reference or by value, for the toy client and wallet. *)
Definition toy_build (byref : bool) : call := CBuild (toy_builder byref toy_client) 7%N toy_wm.
Lemma toy_prepared (byref : bool) : exists s d, rb_prepare simple_parse (toy_builder byref toy_client) 7%N toy_wm = Ok (s, d)
  /\ s_uuid s = 7%N /\ s_status s = if byref then SentRequestByReference else SentRequest.
Proof.
  destruct (rb_prepare simple_parse (toy_builder byref toy_client) 7%N toy_wm) as [[s d]|e] eqn:E; [|destruct byref; vm_compute in E; discriminate].
  exists s, d. split; [reflexivity|]. apply prepare_inv in E as (U & _ & _ & _ & _ & _ & ind & ep & C & _). split; [exact U|].
  destruct byref; cbn in C; [destruct C as (r & _ & _ & C)|destruct C as [_ C]]; exact C.
Qed.
Lemma toy_built (byref : bool) : exists s d, s_uuid s = 7%N /\ s_status s = (if byref then SentRequestByReference else SentRequest)
  /\ reachable simple_parse (mk_sys [(7%N, s)] [] [(toy_build byref, EvReturn (Ok (AUrl d))); (toy_build byref, EvInitiate s (Ok tt))]).
Proof.
  destruct (toy_prepared byref) as (s & d & E & U & St). exists s, d. split; [exact U|]. split; [exact St|].
  eapply steps_snoc; [eapply steps_snoc; [eapply steps_snoc; [apply steps_refl|apply (step_start _ [] [] [] (toy_build byref))]|]|].
  - apply (step_act _ [] (st_insert (s_uuid s) s []) [] (toy_build byref) (code simple_parse (toy_build byref)) (Done (Ok (AUrl d))) [] [] (EvInitiate s (Ok tt))).
    unfold toy_build, code, build_code. rewrite E. cbn [pmap].
    exact (act_initiate [] s (fun x => Done (rmap AUrl (rmap (fun _ => d) x))) false _ (Ok tt) eq_refl).
  - rewrite U. apply (step_return _ [(7%N, s)] [] (toy_build byref) (Ok (AUrl d)) []).
Qed.

Example c36_isolated_ex :
  exists y s, reachable simple_parse y /\ st_get 7%N (sy_store y) = Some s /\ sy_log y <> [].
Proof.
  destruct (toy_built true) as (s & d & U & St & R). eexists. exists s. split; [exact R|]. split; [reflexivity|discriminate].
Qed.

Lemma only_act {A} u m (p : prog A) m' p' e : ssorted m -> act m p m' p' e -> targets u p ->
  act (match st_get u m with Some s => [(u, s)] | None => [] end) p
      (match st_get u m' with Some s => [(u, s)] | None => [] end) p' e.
Proof.
  intros S H T. destruct H as [m s k c m' x E|m v st k c m' x E|m v k c|m v k c m' x E|m s r k o]; cbn in T.
  - destruct T as [<- _]. apply act_initiate with (contended := c). rewrite (initiate_get _ _ _ _ _ (s_uuid s) E).
    unfold initiate in *. destruct c; injection E as _ <-; [reflexivity|]. rewrite N.eqb_refl. destruct (st_get (s_uuid s) m); cbn; [|reflexivity].
    now rewrite N.compare_refl.
  - destruct T as [-> _]. apply act_update with (contended := c). rewrite (proj1 (update_get _ _ _ _ _ _ u E)).
    unfold update_status in *. destruct c; [injection E as _ <-; reflexivity|].
    destruct (st_get u m) as [s|] eqn:G; injection E as _ <-; cbn; rewrite ?N.eqb_refl; cbn; [|reflexivity]. now rewrite N.compare_refl.
  - destruct T as [-> _]. assert (X : get_session c u m = get_session c u (match st_get u m with Some s => [(u, s)] | None => [] end)).
    { unfold get_session. destruct (st_get u m) as [s|]; cbn; [now rewrite N.eqb_refl|reflexivity]. }
    rewrite X. apply act_get.
  - destruct T as [-> _]. apply act_remove with (contended := c). rewrite (proj1 (remove_get _ _ _ _ _ u S E)).
    unfold remove_session in *. destruct c; [injection E as _ <-; reflexivity|].
    destruct (st_get u m) as [s|] eqn:G; injection E as _ <-; cbn; rewrite ?N.eqb_refl; reflexivity.
  - apply act_validate.
Qed.

(** C36: what happens around a session is what could have happened had no other session existed: leaving out all
    other sessions, the calls about them and their history from a reachable state gives a reachable state. *)
Lemma c36_projection_pf :
  forall (url_parse : string -> option url) (y : sys) (u : uuid),
    reachable url_parse y -> reachable url_parse (only_session u y).
Proof.
  intros up y u R. pose proof R as R0. unfold reachable in R. remember sys_init as a eqn:Ea. revert R0.
  induction R as [a|a b c R IH H]; intros R0; subst a.
  - apply steps_refl.
  - assert (Rb : reachable up b) by exact R. specialize (IH eq_refl Rb). apply inv_reachable in Rb as [S T _ _ _ _].
    destruct H as [m ts l c|m m' pre c p p' post l e Ha|m pre c r post l|m pre c p post l]; unfold only_session in *;
      cbn [sy_store sy_tasks sy_log] in *; rewrite ?filter_app in *; cbn [filter fst] in *.
    + destruct (N.eqb (target c) u); [|exact IH]. eapply steps_snoc; [exact IH|apply step_start].
    + assert (Tp : targets (target c) p) by (apply (T c p), in_mid; auto).
      destruct (N.eqb_spec (target c) u) as [E|N0].
      * eapply steps_snoc; [exact IH|]. apply step_act. apply only_act; [exact S|exact Ha|now rewrite <- E].
      * rewrite (act_other _ _ _ _ _ (target c) u S Ha Tp); [exact IH|congruence].
    + destruct (N.eqb (target c) u); [|exact IH]. eapply steps_snoc; [exact IH|apply step_return].
    + destruct (N.eqb (target c) u); [|exact IH]. eapply steps_snoc; [exact IH|apply step_drop].
Qed.

Example c36_projection_ex :
  exists y, reachable simple_parse y /\ sy_store (only_session 7%N y) <> [] /\ only_session 8%N y = sys_init.
Proof.
  destruct (toy_built true) as (s & d & U & St & R). eexists. split; [exact R|]. split; [cbn; discriminate|reflexivity].
Qed.

(* --------------------------------------------------------------------- C37 *)
Lemma step_data up a b u s : inv a -> step up a b -> st_get u (sy_store a) = Some s ->
  (exists s', st_get u (sy_store b) = Some s' /\ same_request s s')
  \/ exists c e, sy_log b = (c, e) :: sy_log a /\ (e = EvRemove u (Ok tt) \/ exists s1, e = EvInitiate s1 (Ok tt) /\ s_uuid s1 = u).
Proof.
  intros [S _ _ _ _ _] H G.
  destruct H as [m ts l c|m m' pre c p p' post l e Ha|m pre c r post l|m pre c p post l]; cbn [sy_store sy_tasks sy_log] in *;
    try (left; exists s; split; [exact G|apply same_refl]).
  destruct Ha as [m s1 k co m' x E|m v st k co m' x E|m v k co|m v k co m' x E|m s1 r k o]; try (left; exists s; split; [exact G|apply same_refl]).
  - rewrite (initiate_get _ _ _ _ _ u E). destruct x as [[]|]; [|left; exists s; split; [exact G|apply same_refl]].
    destruct (N.eqb_spec u (s_uuid s1)) as [->|]; [|left; exists s; split; [exact G|apply same_refl]]. right. eauto 10.
  - rewrite (proj1 (update_get _ _ _ _ _ _ u E)). destruct x as [[]|]; [|left; exists s; split; [exact G|apply same_refl]].
    destruct (N.eqb_spec u v) as [->|]; [|left; exists s; split; [exact G|apply same_refl]]. rewrite G. cbn. left. eexists. split; [reflexivity|]. repeat split.
  - rewrite (proj1 (remove_get _ _ _ _ _ u S E)). destruct x as [[]|]; [|left; exists s; split; [exact G|apply same_refl]].
    destruct (N.eqb_spec u v) as [->|]; [|left; exists s; split; [exact G|apply same_refl]]. right. eauto.
Qed.
Lemma step_log up a b : step up a b -> sy_log b = sy_log a \/ exists e, sy_log b = e :: sy_log a.
Proof. intros H. destruct H; cbn; eauto. Qed.
Lemma inv_steps up a b : inv a -> steps up a b -> inv b.
Proof. intros I H. induction H; [exact I|]. eapply inv_step; [eassumption|auto]. Qed.
Lemma steps_log up a b : steps up a b -> exists l, history a b l.
Proof.
  unfold history. intros H. induction H as [a|a b c H (l & IH) S]; [now exists []|].
  apply step_log in S as [->|(e & ->)]; rewrite IH; [now exists l|now exists (e :: l)].
Qed.

(** C37: as long as a session is neither removed nor created again, it stays in the store with the request object,
    JWT and query it has. *)
Lemma c37_immutable_pf :
  forall (url_parse : string -> option url) (a b : sys) (l : list (call * event)) (u : uuid) (s : session),
    reachable url_parse a -> steps url_parse a b -> history a b l ->
    ~ removes u l -> (forall s1, ~ creates u s1 l) ->
    st_get u (sy_store a) = Some s ->
    exists s', st_get u (sy_store b) = Some s' /\ same_request s s'.
Proof.
  intros up a b l u s R H Hl Nr Nc G. apply inv_reachable in R. revert l Hl Nr Nc.
  induction H as [a|a b c H IH S]; intros l Hl Nr Nc; [exists s; split; [exact G|apply same_refl]|].
  destruct (steps_log _ _ _ H) as (l1 & H1). unfold history in *.
  assert (X : exists s1, st_get u (sy_store b) = Some s1 /\ same_request s s1).
  { pose proof (step_log _ _ _ S) as [E|(e & E)].
    - apply (IH R G l1 H1); rewrite E, H1 in Hl; apply app_inv_tail in Hl; subst; assumption.
    - rewrite E, H1 in Hl. change (e :: l1 ++ sy_log a) with ((e :: l1) ++ sy_log a) in Hl. apply app_inv_tail in Hl. subst l.
      apply (IH R G l1 H1); [intros (c0 & Hc); apply Nr; exists c0; now right|].
      intros s1 [U (c0 & Hc)]. apply (Nc s1). split; [exact U|]. exists c0. now right. }
  destruct X as (s1 & G1 & Q). destruct (step_data _ _ _ u s1 (inv_steps _ _ _ R H) S G1) as [(s2 & G2 & Q2)|(c0 & e & E & D)].
  - exists s2. split; [exact G2|]. eapply same_trans; eassumption.
  - exfalso. rewrite E, H1 in Hl. change ((c0, e) :: l1 ++ sy_log a) with (((c0, e) :: l1) ++ sy_log a) in Hl. apply app_inv_tail in Hl. subst l.
    destruct D as [->|(s2 & -> & U)]; [apply Nr; exists c0; now left|]. apply (Nc s2). split; [exact U|]. exists c0. now left.
Qed.

Example c37_immutable_ex :
  exists a b l s, reachable simple_parse a /\ steps simple_parse a b /\ history a b l /\ length l = 3
    /\ ~ removes 7%N l /\ (forall s1, ~ creates 7%N s1 l) /\ st_get 7%N (sy_store a) = Some s.
Proof.
  destruct (toy_built true) as (s & d & U & St & R).
  destruct (run false (fun _ _ => OError "") (code simple_parse (CRetrieve 7%N)) [(7%N, s)]) as [[m' calls] x] eqn:E.
  cbn in E. rewrite St in E. cbn in E. injection E as <- <- <-.
  match type of R with reachable _ ?y => exists y end.
  exists (mk_sys [(7%N, set_status s SentRequest)] [] ([(CRetrieve 7%N, EvReturn (Ok (AJwt (s_jwt s)))); (CRetrieve 7%N, EvUpdate 7%N SentRequest (Ok tt)); (CRetrieve 7%N, EvGet 7%N (Ok s))]
     ++ [(toy_build true, EvReturn (Ok (AUrl d))); (toy_build true, EvInitiate s (Ok tt))])).
  eexists. exists s. split; [exact R|]. split; [|split; [reflexivity|]; split; [reflexivity|]; split; [|split; [|reflexivity]]].
  - eapply steps_snoc; [eapply steps_snoc; [eapply steps_snoc; [eapply steps_snoc; [apply steps_refl|apply (step_start _ _ _ _ (CRetrieve 7%N))]|]|]|].
    + exact (step_act _ _ _ [] (CRetrieve 7%N) _ _ [] _ _ (act_get [(7%N, s)] 7%N _ false)).
    + cbn. rewrite St. cbn.
      exact (step_act _ _ _ [] (CRetrieve 7%N) _ _ [] _ _ (act_update [(7%N, s)] 7%N SentRequest (fun x => Done (rmap AJwt (rmap (fun _ => s_jwt s) x))) false _ (Ok tt) eq_refl)).
    + exact (step_return _ _ [] _ _ [] _).
  - intros (c & [H|[H|[H|[]]]]); discriminate.
  - intros s1 [_ (c & [H|[H|[H|[]]]])]; discriminate.
Qed.

(** C37: what is stored, and the JWT that a retrieve returns, is what some build created for that session id. *)
Lemma c37_retrieved_pf :
  forall (url_parse : string -> option url) (y : sys) (u : uuid),
    reachable url_parse y ->
    (forall s, st_get u (sy_store y) = Some s -> exists s1, creates u s1 (sy_log y) /\ same_request s1 s)
    /\ (forall jwt, In (CRetrieve u, EvReturn (Ok (AJwt jwt))) (sy_log y) ->
        exists s1, creates u s1 (sy_log y) /\ s_jwt s1 = jwt).
Proof.
  intros up y u R. split; [intros s; apply (inv_stored _ (inv_reachable _ _ R))|].
  unfold reachable in R. remember sys_init as a eqn:Ea. induction R as [a|a b c R IH H]; subst a; [intros j []|].
  assert (I : inv b) by (apply (inv_reachable up); exact R). specialize (IH eq_refl).
  assert (M : forall jwt, In (CRetrieve u, EvReturn (Ok (AJwt jwt))) (sy_log b) -> exists s1, creates u s1 (sy_log c) /\ s_jwt s1 = jwt).
  { intros j Hj. destruct (IH j Hj) as (s1 & C1 & E1). exists s1. split; [|exact E1].
    apply step_log in H as [->|(e & ->)]; [exact C1|now apply creates_cons]. }
  intros j Hj. destruct H as [m ts l c|m m' pre c p p' post l e Ha|m pre c r post l|m pre c p post l]; cbn [sy_log] in *; auto.
  - destruct Hj as [E|Hj]; [|auto]. injection E as -> ->. inversion Ha.
  - destruct Hj as [E|Hj]; [|auto]. injection E as -> ->.
    destruct I as [_ T _ G _ _]. cbn [sy_tasks sy_log] in *. destruct (T (CRetrieve u) (Done (Ok (AJwt j)))) as [_ J]; [apply in_mid; auto|].
    cbn in J. destruct J as (s0 & Hg & <-). destruct (G _ _ _ Hg) as (s1 & C1 & (_ & E & _)). exists s1. split; [now apply creates_cons|exact E].
Qed.

Lemma alone_reachable up v c m ts l m' calls x : reachable up (mk_sys m ts l) -> run false v (code up c) m = (m', calls, x) ->
  exists evs, reachable up (mk_sys m' ts ((c, EvReturn x) :: evs ++ l)).
Proof. intros R H. destruct (c40_alone_pf up false v c m m' ts l calls x H) as (evs & S & _). exists evs. eapply steps_trans; eassumption. Qed.

Example c37_retrieved_ex :
  exists y jwt, reachable simple_parse y /\ In (CRetrieve 7%N, EvReturn (Ok (AJwt jwt))) (sy_log y).
Proof.
  destruct (toy_built true) as (s & d & U & St & R).
  assert (E : run false (fun _ _ => OError "") (code simple_parse (CRetrieve 7%N)) [(7%N, s)] = ([(7%N, set_status s SentRequest)], [], Ok (AJwt (s_jwt s)))).
  { cbn. rewrite St. reflexivity. }
  destruct (alone_reachable _ _ _ _ _ _ _ _ _ R E) as (evs & R'). eexists. exists (s_jwt s). split; [exact R'|]. now left.
Qed.

(* --------------------------------------------------------------------- C39 *)
(** A completed session, for the examples. *)
Lemma toy_completed (byref : bool) (o : outcome) : exists s y l, reachable simple_parse y
  /\ st_get 7%N (sy_store y) = Some s /\ s_status s = Complete o /\ sy_store y = [(7%N, s)] /\ sy_tasks y = [] /\ sy_log y = l.
Proof.
  destruct (toy_built byref) as (s & d & U & St & R).
  assert (E : run false (fun _ _ => o) (code simple_parse (CVerify 7%N (Jwt "response"))) [(7%N, s)] = ([(7%N, set_status s (Complete o))], [(s, Jwt "response")], Ok ANothing)) by reflexivity.
  destruct (alone_reachable _ _ _ _ _ _ _ _ _ R E) as (evs & R'). exists (set_status s (Complete o)). eexists. eexists. split; [exact R'|]. repeat split.
Qed.
Lemma once_same u s s' l : (forall s1 s2, creates u s1 l -> creates u s2 l -> same_request s1 s2) ->
  (exists s1, creates u s1 l /\ same_request s1 s) -> (exists s1, creates u s1 l /\ same_request s1 s') -> same_request s s'.
Proof.
  intros H (s1 & C1 & Q1) (s2 & C2 & Q2). eapply same_trans; [apply same_sym, Q1|]. eapply same_trans; [apply (H s1 s2 C1 C2)|exact Q2].
Qed.

(** C39: a session is complete with an outcome only after a response for it was validated with that outcome, for
    the session as read from the store; if the session id is not reused for another request, that is the request
    the session holds. *)
Lemma c39_outcome_pf :
  forall (url_parse : string -> option url) (y : sys) (u : uuid) (s : session) (o : outcome),
    reachable url_parse y -> st_get u (sy_store y) = Some s -> s_status s = Complete o ->
    exists newer older r s0,
      sy_log y = newer ++ (CVerify u r, EvUpdate u (Complete o) (Ok tt)) :: older
      /\ validated u o s0 r older
      /\ ((forall s1 s2, creates u s1 (sy_log y) -> creates u s2 (sy_log y) -> same_request s1 s2) -> same_request s0 s).
Proof.
  intros up y u s o R G C. apply inv_reachable in R as [_ _ D Gt Cm _].
  destruct (Cm u s o G C) as (n & od & r & s0 & E & V). exists n, od, r, s0. split; [exact E|]. split; [exact V|]. intros O1.
  eapply once_same; [exact O1| |now apply D]. apply (Gt (CVerify u r)). rewrite E. apply in_app_iff. right. right. apply V.
Qed.

Example c39_outcome_ex :
  exists y s, reachable simple_parse y /\ st_get 7%N (sy_store y) = Some s /\ s_status s = Complete (OFailure "no").
Proof. destruct (toy_completed true (OFailure "no")) as (s & y & l & R & G & S & _). eauto. Qed.

(** C39: so does a poll that reports an outcome. *)
Lemma c39_polled_pf :
  forall (url_parse : string -> option url) (y : sys) (u : uuid) (o : outcome),
    reachable url_parse y -> In (CPoll u, EvReturn (Ok (AStatus (Complete o)))) (sy_log y) ->
    exists r s0, validated u o s0 r (sy_log y).
Proof.
  intros up y u o R. unfold reachable in R. remember sys_init as a eqn:Ea. induction R as [a|a b c R IH H]; subst a; [intros []|].
  assert (I : inv b) by (apply (inv_reachable up); exact R). specialize (IH eq_refl).
  assert (M : In (CPoll u, EvReturn (Ok (AStatus (Complete o)))) (sy_log b) -> exists r s0, validated u o s0 r (sy_log c)).
  { intros Hj. destruct (IH Hj) as (r & s0 & V). exists r, s0. eapply validated_mono; [|exact V].
    apply step_log in H as [->|(e & ->)]; intros x Hx; [exact Hx|now right]. }
  intros Hj. destruct H as [m ts l c|m m' pre c p p' post l e Ha|m pre c r post l|m pre c p post l]; cbn [sy_log] in *; auto.
  - destruct Hj as [E|Hj]; [|auto]. injection E as -> ->. inversion Ha.
  - destruct Hj as [E|Hj]; [|auto]. injection E as -> ->.
    destruct I as [_ T _ _ _ GC]. cbn [sy_tasks sy_log] in *. destruct (T (CPoll u) (Done (Ok (AStatus (Complete o))))) as [_ J]; [apply in_mid; auto|].
    cbn in J. destruct J as (s0 & Hg & Es). destruct (GC _ _ _ _ Hg Es) as (n & od & r & s1 & -> & V). exists r, s1.
    eapply validated_mono; [|exact V]. intros x Hx. right. apply in_app_iff. right. now right.
Qed.

Example c39_polled_ex :
  exists y, reachable simple_parse y /\ In (CPoll 7%N, EvReturn (Ok (AStatus (Complete (OFailure "no"))))) (sy_log y).
Proof.
  destruct (toy_completed true (OFailure "no")) as (s & [m ts l0] & l & R & G & S & E1 & E2 & _). cbn in E1, E2. subst m ts.
  assert (E : run false (fun _ _ => OError "") (code simple_parse (CPoll 7%N)) [(7%N, s)] = ([(7%N, s)], [], Ok (AStatus (Complete (OFailure "no"))))).
  { cbn. rewrite S. reflexivity. }
  destruct (alone_reachable _ _ _ _ _ _ _ _ _ R E) as (evs & R'). eexists. split; [exact R'|]. now left.
Qed.

(* --------------------------------------------------------------------- C38 *)
Lemma run_one up m c p m' p' l e : act m p m' p' e ->
  forall pre post, steps up (mk_sys m (pre ++ (c, p) :: post) l) (mk_sys m' (pre ++ (c, p') :: post) ((c, e) :: l)).
Proof. intros H pre post. eapply steps_snoc; [apply steps_refl|]. now apply step_act. Qed.

(** C38: a retrieve that overlaps with a response for the same session can put the session back from complete to
    sent, and nothing else is done meanwhile. *)
Lemma c38_race_refuted_pf :
  exists (url_parse : string -> option url) (u : uuid) (o : outcome) (a b : sys) (s s' : session) (l : list (call * event)),
    reachable url_parse a /\ steps url_parse a b /\ history a b l
    /\ st_get u (sy_store a) = Some s /\ s_status s = Complete o
    /\ st_get u (sy_store b) = Some s' /\ s_status s' = SentRequest
    /\ l = [(CRetrieve u, EvUpdate u SentRequest (Ok tt))].
Proof.
  destruct (toy_built true) as (s & d & U & St & R). set (l0 := [(toy_build true, EvReturn (Ok (AUrl d))); (toy_build true, EvInitiate s (Ok tt))]) in *.
  set (cr := CRetrieve 7%N). set (cv := CVerify 7%N (Jwt "response")). set (o := OSuccess JNull).
  assert (G : get_session false 7%N [(7%N, s)] = Ok s) by reflexivity.
  set (upd := pmap AJwt (Update 7%N SentRequest (fun x => Done (rmap (fun _ : unit => s_jwt s) x)))).
  set (fin := pmap (fun _ => ANothing) (Update 7%N (Complete o) (fun x => Done x))).
  assert (A1 : act [(7%N, s)] (code simple_parse cr) [(7%N, s)] upd (EvGet 7%N (Ok s))).
  { unfold code, cr, retrieve_code. cbn [pmap]. rewrite <- G.
    assert (E : upd = (fun x => pmap AJwt (match x with Err e => Done (Err e) | Ok s => if status_lt (s_status s) SentRequest then Update 7%N SentRequest (fun x => Done (rmap (fun _ : unit => s_jwt s) x)) else Done (Ok (s_jwt s)) end)) (get_session false 7%N [(7%N, s)])).
    { rewrite G, St. reflexivity. }
    rewrite E. exact (act_get [(7%N, s)] 7%N (fun x => pmap AJwt (match x with Err e => Done (Err e) | Ok s => if status_lt (s_status s) SentRequest then Update 7%N SentRequest (fun x => Done (rmap (fun _ : unit => s_jwt s) x)) else Done (Ok (s_jwt s)) end)) false). }
  assert (A2 : act [(7%N, s)] (code simple_parse cv) [(7%N, s)] (pmap (fun _ => ANothing) (Validate s (Jwt "response") (fun o => Update 7%N (Complete o) (fun x => Done x)))) (EvGet 7%N (Ok s))).
  { unfold code, cv, verify_code. cbn [pmap]. rewrite <- G.
    exact (act_get [(7%N, s)] 7%N (fun x => pmap (fun _ => ANothing) (match x with Err e => Done (Err e) | Ok s => Validate s (Jwt "response") (fun o => Update 7%N (Complete o) (fun x => Done x)) end)) false). }
  assert (A3 : act [(7%N, s)] (pmap (fun _ => ANothing) (Validate s (Jwt "response") (fun o => Update 7%N (Complete o) (fun x => Done x)))) [(7%N, s)] fin (EvValidate s (Jwt "response") o)).
  { cbn [pmap]. exact (act_validate [(7%N, s)] s (Jwt "response") (fun o => pmap (fun _ => ANothing) (Update 7%N (Complete o) (fun x => Done x))) o). }
  assert (A4 : act [(7%N, s)] fin [(7%N, set_status s (Complete o))] (Done (Ok ANothing)) (EvUpdate 7%N (Complete o) (Ok tt))).
  { unfold fin. cbn [pmap]. exact (act_update [(7%N, s)] 7%N (Complete o) (fun x => Done (rmap (fun _ => ANothing) x)) false _ (Ok tt) eq_refl). }
  assert (A5 : act [(7%N, set_status s (Complete o))] upd [(7%N, set_status (set_status s (Complete o)) SentRequest)] (Done (Ok (AJwt (s_jwt s)))) (EvUpdate 7%N SentRequest (Ok tt))).
  { unfold upd. cbn [pmap]. exact (act_update [(7%N, set_status s (Complete o))] 7%N SentRequest (fun x => Done (rmap AJwt (rmap (fun _ => s_jwt s) x))) false _ (Ok tt) eq_refl). }
  set (y := mk_sys [(7%N, set_status s (Complete o))] [(cr, upd); (cv, Done (Ok ANothing))]
     ((cv, EvUpdate 7%N (Complete o) (Ok tt)) :: (cv, EvValidate s (Jwt "response") o) :: (cv, EvGet 7%N (Ok s)) :: (cr, EvGet 7%N (Ok s)) :: l0)).
  assert (Ry : reachable simple_parse y).
  { unfold reachable. eapply steps_trans; [exact R|].
    eapply steps_trans; [eapply steps_snoc; [apply steps_refl|apply (step_start _ _ _ _ cv)]|].
    eapply steps_trans; [eapply steps_snoc; [apply steps_refl|apply (step_start _ _ _ _ cr)]|].
    eapply steps_trans; [apply (run_one _ _ _ _ _ _ _ _ A1 [] [(cv, code simple_parse cv)])|].
    eapply steps_trans; [apply (run_one _ _ _ _ _ _ _ _ A2 [(cr, upd)] [])|].
    eapply steps_trans; [apply (run_one _ _ _ _ _ _ _ _ A3 [(cr, upd)] [])|].
    apply (run_one _ _ _ _ _ _ _ _ A4 [(cr, upd)] []). }
  exists simple_parse, 7%N, o, y, (mk_sys [(7%N, set_status (set_status s (Complete o)) SentRequest)] [(cr, Done (Ok (AJwt (s_jwt s)))); (cv, Done (Ok ANothing))]
     ((cr, EvUpdate 7%N SentRequest (Ok tt)) :: sy_log y)), (set_status s (Complete o)), (set_status (set_status s (Complete o)) SentRequest), [(cr, EvUpdate 7%N SentRequest (Ok tt))].
  split; [exact Ry|]. split; [apply (run_one _ _ _ _ _ _ _ _ A5 [] [(cv, Done (Ok ANothing))])|]. repeat split.
Qed.

(** C38: this is the only way in which a session goes backwards: a step that lowers the progress of a session is
    either a new build under the same id or the update of a retrieve that had read the session before it was sent. *)
Lemma c38_only_race_pf :
  forall (url_parse : string -> option url) (a b : sys) (u : uuid) (s s' : session),
    reachable url_parse a -> step url_parse a b ->
    st_get u (sy_store a) = Some s -> st_get u (sy_store b) = Some s' ->
    (progress (s_status s') < progress (s_status s))%N ->
    (exists c, sy_log b = (c, EvInitiate s' (Ok tt)) :: sy_log a)
    \/ sy_log b = (CRetrieve u, EvUpdate u SentRequest (Ok tt)) :: sy_log a
       /\ s_status s' = SentRequest
       /\ exists s0, In (CRetrieve u, EvGet u (Ok s0)) (sy_log a) /\ s_status s0 = SentRequestByReference.
Proof.
  intros up a b u s s' R H G G' L. apply inv_reachable in R as [S T _ _ _ _].
  destruct H as [m ts l c|m m' pre c p p' post l e Ha|m pre c r post l|m pre c p post l]; cbn [sy_store sy_tasks sy_log] in *;
    try (replace s' with s in L by congruence; lia).
  destruct (T c p) as [Tp Jp]; [apply in_mid; auto|].
  destruct Ha as [m s1 k co m' x E|m v st k co m' x E|m v k co|m v k co m' x E|m s1 r k o]; try (replace s' with s in L by congruence; lia).
  - rewrite (initiate_get _ _ _ _ _ u E) in G'. destruct x as [[]|]; [|replace s' with s in L by congruence; lia].
    destruct (N.eqb_spec u (s_uuid s1)) as [->|]; [|replace s' with s in L by congruence; lia]. injection G' as ->. eauto.
  - rewrite (proj1 (update_get _ _ _ _ _ _ u E)) in G'. destruct x as [[]|]; [|replace s' with s in L by congruence; lia].
    destruct (N.eqb_spec u v) as [->|]; [|replace s' with s in L by congruence; lia]. rewrite G in G'. cbn in G'. injection G' as <-. cbn [s_status set_status] in L |- *.
    cbn in Jp. destruct Jp as [[(-> & -> & s0 & J)|(o & s0 & r & -> & _)] _].
    + right. split; [reflexivity|]. split; [reflexivity|]. eauto.
    + exfalso. destruct (s_status s); cbn in L; lia.
  - rewrite (proj1 (remove_get _ _ _ _ _ u S E)) in G'. destruct x as [[]|]; [|replace s' with s in L by congruence; lia].
    destruct (N.eqb_spec u v) as [->|]; [discriminate|replace s' with s in L by congruence; lia].
Qed.

Example c38_only_race_ex :
  exists a b s s', reachable simple_parse a /\ step simple_parse a b /\ st_get 7%N (sy_store a) = Some s /\ st_get 7%N (sy_store b) = Some s'
    /\ (progress (s_status s') < progress (s_status s))%N.
Proof.
  destruct (toy_completed true (OFailure "no")) as (s & [m ts l0] & l & R & G & S & E1 & E2 & _). cbn in E1, E2. subst m ts.
  destruct (toy_prepared true) as (s2 & d & E & U & St).
  exists (mk_sys [(7%N, s)] [(toy_build true, code simple_parse (toy_build true))] l0). eexists. exists s, s2.
  split; [eapply steps_snoc; [exact R|apply step_start]|].
  split; [eapply (step_act _ [(7%N, s)] (st_insert (s_uuid s2) s2 [(7%N, s)]) [] (toy_build true) (code simple_parse (toy_build true)) (Done (Ok (AUrl d))) [] l0 (EvInitiate s2 (Ok tt)))|].
  - unfold toy_build, code, build_code. rewrite E. cbn [pmap].
    exact (act_initiate [(7%N, s)] s2 (fun x => Done (rmap AUrl (rmap (fun _ => d) x))) false _ (Ok tt) eq_refl).
  - split; [exact G|]. cbn [sy_store]. rewrite U, st_get_insert. split; [reflexivity|]. rewrite S, St. reflexivity.
Qed.

(** C38: so sessions whose request is conveyed by value, and never created again otherwise, only make progress. *)
Lemma c38_by_value_pf :
  forall (url_parse : string -> option url) (a b : sys) (u : uuid) (s s' : session) (l : list (call * event)),
    reachable url_parse a -> steps url_parse a b -> history a b l ->
    (forall s1, creates u s1 (sy_log a) -> s_status s1 = SentRequest) ->
    (forall s1, ~ creates u s1 l) -> ~ removes u l ->
    st_get u (sy_store a) = Some s -> st_get u (sy_store b) = Some s' ->
    (progress (s_status s) <= progress (s_status s'))%N.
Proof.
  intros up a b u s s' l R H Hl Hv Nc Nr G G'.
  (* by-value sessions are never seen as not sent *)
  assert (V : forall y, reachable up y -> (forall s1, creates u s1 (sy_log y) -> s_status s1 = SentRequest) ->
    (forall s1, st_get u (sy_store y) = Some s1 -> s_status s1 <> SentRequestByReference)
    /\ (forall c s1, In (c, EvGet u (Ok s1)) (sy_log y) -> s_status s1 <> SentRequestByReference)).
  { clear. intros y R. unfold reachable in R. remember sys_init as a eqn:Ea. induction R as [a|a b c R IH H]; subst a; intros Hc.
    - cbn. split; [discriminate|contradiction].
    - assert (I : inv b) by (apply (inv_reachable up); exact R).
      assert (Hb : forall s1, creates u s1 (sy_log b) -> s_status s1 = SentRequest).
      { intros s1 C1. apply Hc. apply step_log in H as [->|(e & ->)]; [exact C1|now apply creates_cons]. }
      destruct (IH eq_refl Hb) as [I1 I2]. destruct I as [S T _ _ _ _].
      destruct H as [m ts l c|m m' pre c p p' post l e Ha|m pre c r post l|m pre c p post l]; cbn [sy_store sy_tasks sy_log] in *; auto.
      + destruct (T c p) as [Tp Jp]; [apply in_mid; auto|].
        destruct Ha as [m s1 k co m' x E|m v st k co m' x E|m v k co|m v k co m' x E|m s1 r k o].
        * split; [|intros c' s2 [X|X]; [discriminate|eauto]]. intros s2 G2. rewrite (initiate_get _ _ _ _ _ u E) in G2. destruct x as [[]|]; [|auto].
          destruct (N.eqb_spec u (s_uuid s1)) as [->|]; [|auto]. injection G2 as ->. rewrite (Hc s2); [discriminate|]. split; [reflexivity|]. exists c. now left.
        * split; [|intros c' s2 [X|X]; [discriminate|eauto]]. intros s2 G2. rewrite (proj1 (update_get _ _ _ _ _ _ u E)) in G2. destruct x as [[]|]; [|auto].
          destruct (N.eqb_spec u v) as [->|]; [|auto]. destruct (st_get v m); [|discriminate]. injection G2 as <-. cbn.
          cbn in Jp. destruct Jp as [[(-> & _)|(o & s0 & r & -> & _)] _]; discriminate.
        * split; [exact I1|]. intros c' s2 [X|X]; [|eauto]. injection X as _ -> X. unfold get_session in X. destruct co; [discriminate|]. apply ok_or_ok in X. auto.
        * split; [|intros c' s2 [X|X]; [discriminate|eauto]]. intros s2 G2. rewrite (proj1 (remove_get _ _ _ _ _ u S E)) in G2. destruct x as [[]|]; [|auto].
          destruct (N.eqb_spec u v); [discriminate|auto].
        * split; [exact I1|]. intros c' s2 [X|X]; [discriminate|eauto].
      + split; [exact I1|]. intros c' s2 [X|X]; [discriminate|eauto]. }
  revert l s' Hl Nc Nr G'. induction H as [a|a b c H IH S]; intros l s' Hl Nc Nr G'.
  - replace s' with s by congruence. lia.
  - destruct (steps_log _ _ _ H) as (l1 & H1). unfold history in *.
    assert (Hl' : l = l1 \/ exists e, l = e :: l1 /\ sy_log c = e :: sy_log b).
    { pose proof (step_log _ _ _ S) as [E|(e & E)]; rewrite E, H1 in Hl.
      - apply app_inv_tail in Hl. auto.
      - change (e :: l1 ++ sy_log a) with ((e :: l1) ++ sy_log a) in Hl. apply app_inv_tail in Hl. subst l. eauto. }
    assert (Nc1 : forall s1, ~ creates u s1 l1).
    { intros s1 C1. apply (Nc s1). destruct Hl' as [->|(e & -> & _)]; [exact C1|now apply creates_cons]. }
    assert (Nr1 : ~ removes u l1).
    { intros (c0 & C1). apply Nr. exists c0. destruct Hl' as [->|(e & -> & _)]; [exact C1|now right]. }
    assert (Rb : reachable up b) by (eapply steps_trans; [exact R|exact H]).
    destruct (c37_immutable_pf up a b l1 u s R H H1 Nr1 Nc1 G) as (s1 & G1 & _).
    specialize (IH R Hv G l1 s1 H1 Nc1 Nr1 G1).
    destruct (N.lt_ge_cases (progress (s_status s')) (progress (s_status s1))) as [L|L]; [|lia]. exfalso.
    destruct (c38_only_race_pf up b c u s1 s' Rb S G1 G' L) as [(c0 & E)|(E & _ & s0 & Hg & Hs)].
    + destruct Hl' as [->|(e & -> & E')]; [rewrite E, H1 in Hl; apply (f_equal (@length _)) in Hl; cbn in Hl; rewrite !app_length in Hl; lia|].
      rewrite E in E'. injection E' as <-. apply (Nc s'). split; [|exists c0; now left].
      assert (I : inv c) by (apply (inv_reachable up); eapply steps_snoc; [exact Rb|exact S]).
      destruct (inv_stored _ I u s' G') as (s2 & [U2 _] & (U & _)). congruence.
    + assert (Hb : forall s1, creates u s1 (sy_log b) -> s_status s1 = SentRequest).
      { intros s2 [U (c0 & Hc)]. rewrite H1 in Hc. apply in_app_iff in Hc as [Hc|Hc].
        - exfalso. apply (Nc1 s2). split; eauto.
        - apply Hv. split; eauto. }
      destruct (V b Rb Hb) as [_ V2]. exact (V2 _ _ Hg Hs).
Qed.

Example c38_by_value_ex :
  exists a s, reachable simple_parse a /\ st_get 7%N (sy_store a) = Some s /\ s_status s = SentRequest
    /\ (forall s1, creates 7%N s1 (sy_log a) -> s_status s1 = SentRequest).
Proof.
  destruct (toy_built false) as (s & d & U & St & R). eexists. exists s. split; [exact R|]. split; [reflexivity|]. split; [exact St|].
  intros s1 [_ (c & [H|[H|[]]])]; [discriminate|]. now injection H as _ <-.
Qed.
