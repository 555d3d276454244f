From Coq Require Import Lia ZArith.
From Verif Require Import Base BaseFacts Utf8 Json JsonFacts JsonText JsonTextFacts Serde Url UrlEncoded Object Formats Params Metadata Dcql
  Request Response Session X509 SpecCert CertFacts Client Builder Server ExVerifier.
From Verif Require Import MapFacts Spec SpecObject SpecRequest SpecJwe SpecBuilder SpecSession StoreFacts PfBuilder UuidFacts PfSession PfServer SpecVerifierEx.

(* ------------------------------------------------------ simulation by the library's server *)
(** A handler's program follows a library program, and answers according to its result. *)
Inductive follows (f : res answer -> reply) : prog reply -> prog answer -> Prop :=
| fo_done r : follows f (Done (Ok (f r))) (Done r)
| fo_initiate s k k' : (forall x, follows f (k x) (k' x)) -> follows f (Initiate s k) (Initiate s k')
| fo_update u st k k' : (forall x, follows f (k x) (k' x)) -> follows f (Update u st k) (Update u st k')
| fo_get u k k' : (forall x, follows f (k x) (k' x)) -> follows f (Get u k) (Get u k')
| fo_remove u k k' : (forall x, follows f (k x) (k' x)) -> follows f (Remove u k) (Remove u k')
| fo_validate s r k k' : (forall x, follows f (k x) (k' x)) -> follows f (Validate s r k) (Validate s r k').

Definition call_of (a : adapter) (h : hreq) : option call :=
  match h with
  | HInitiate n f id => Some (CBuild (initiate_builder a n f) id (ap_wallet a))
  | HRequest sid => option_map CRetrieve (uuid_of_string sid)
  | HResponse sid body =>
      if utf8_valid body then
        match uuid_of_string sid with
        | None => None
        | Some u => match from_form body with Ok r => Some (CVerify u r) | Err _ => None end
        end
      else None
  | HStatus sid => option_map CPoll (uuid_of_string sid)
  end.
Definition finish (a : adapter) (h : hreq) (x : res answer) : reply :=
  match h with
  | HInitiate _ _ id => initiate_reply a id (match x with Ok (AUrl d) => Ok d | Ok _ => Err "" | Err e => Err e end)
  | HRequest _ => request_reply (match x with Ok (AJwt d) => Ok d | Ok _ => Err "" | Err e => Err e end)
  | HResponse _ _ => response_reply (rmap (fun _ => tt) x)
  | HStatus _ => status_reply (match x with Ok (AStatus d) => Ok d | Ok _ => Err "" | Err e => Err e end)
  end.
Lemma follows_pmap {A} (f : res answer -> reply) (g : A -> answer) (f' : res A -> reply) (p : prog A) :
  (forall r, f' r = f (rmap g r)) -> follows f (pfinish f' p) (pmap g p).
Proof.
  intros E. induction p; cbn [pfinish pmap]; try (constructor; auto). rewrite E. constructor.
Qed.

Section S.
Variable up : string -> option url.
Variable op : string -> res string.
Variable a : adapter.

Lemma handler_follows h c : call_of a h = Some c -> follows (finish a h) (handler up a h) (code up c).
Proof.
  destruct h as [n f id|sid|sid body|sid]; cbn [call_of handler].
  - intros [= <-]. apply follows_pmap. intros [d|e]; reflexivity.
  - unfold get_request_object. destruct (uuid_of_string sid) as [u|]; [|discriminate]. intros [= <-]. apply follows_pmap. intros [d|e]; reflexivity.
  - unfold receive_response. destruct (utf8_valid body); [|discriminate]. destruct (uuid_of_string sid) as [u|]; [|discriminate].
    destruct (from_form body) as [r|]; [|discriminate]. intros [= <-]. apply follows_pmap. intros [d|e]; reflexivity.
  - unfold get_status. destruct (uuid_of_string sid) as [u|]; [|discriminate]. intros [= <-]. apply follows_pmap. intros [d|e]; reflexivity.
Qed.
Lemma handler_refuses h : call_of a h = None -> handler up a h = Done (Ok (RError 400)).
Proof.
  destruct h as [n f id|sid|sid body|sid]; cbn [call_of handler]; [discriminate| | |].
  - unfold get_request_object. now destruct (uuid_of_string sid) as [u|].
  - unfold receive_response. destruct (utf8_valid body); [|reflexivity]. destruct (uuid_of_string sid) as [u|]; [|reflexivity].
    now destruct (from_form body) as [r|].
  - unfold get_status. now destruct (uuid_of_string sid) as [u|].
Qed.

Inductive tasks : list (hreq * prog reply) -> list (call * prog answer) -> Prop :=
| ta_nil : tasks [] []
| ta_refused h hs cs : call_of a h = None -> tasks hs cs -> tasks ((h, Done (Ok (RError 400))) :: hs) cs
| ta_call h c p q hs cs : call_of a h = Some c -> follows (finish a h) p q -> tasks hs cs -> tasks ((h, p) :: hs) ((c, q) :: cs).
Lemma tasks_app h1 c1 h2 c2 : tasks h1 c1 -> tasks h2 c2 -> tasks (h1 ++ h2) (c1 ++ c2).
Proof. intros H1 H2. induction H1; cbn; [exact H2|constructor; auto|constructor; auto]. Qed.
Lemma tasks_split pre h p post cs : tasks (pre ++ (h, p) :: post) cs ->
  exists c1 mid c2, cs = c1 ++ mid ++ c2 /\ tasks pre c1 /\ tasks post c2
    /\ (call_of a h = None /\ mid = [] /\ p = Done (Ok (RError 400))
        \/ exists c q, call_of a h = Some c /\ mid = [(c, q)] /\ follows (finish a h) p q).
Proof.
  revert cs. induction pre as [|[h0 p0] pre IH]; cbn [app]; intros cs H.
  - inversion H as [|? ? ? N T|? c ? q ? ? C F T]; subst.
    + exists [], [], cs. repeat split; [constructor|exact T|]. left. auto.
    + exists [], [(c, q)]. eexists. split; [reflexivity|]. split; [constructor|]. split; [exact T|]. right. eauto.
  - inversion H as [|? ? ? N T|? c ? q ? ? C F T]; subst; destruct (IH _ T) as (c1 & mid & c2 & -> & T1 & T2 & D).
    + exists c1, mid, c2. split; [reflexivity|]. split; [now constructor|]. auto.
    + exists ((c, q) :: c1), mid, c2. split; [reflexivity|]. split; [now constructor|]. auto.
Qed.

Inductive logs : list (hreq * hevent) -> list (call * event) -> Prop :=
| lo_nil : logs [] []
| lo_refused h hl l : call_of a h = None -> logs hl l -> logs ((h, HReply (RError 400)) :: hl) l
| lo_does h c e hl l : call_of a h = Some c -> (forall s r o, e = EvValidate s r o -> o = app_validator op s r) ->
    (forall x, e <> EvReturn x) -> logs hl l -> logs ((h, HDoes e) :: hl) ((c, e) :: l)
| lo_reply h c x hl l : call_of a h = Some c -> logs hl l -> logs ((h, HReply (finish a h x)) :: hl) ((c, EvReturn x) :: l).

Lemma act_follows f m p q m' p' e : follows f p q -> act m p m' p' e -> exists q', act m q m' q' e /\ follows f p' q' /\ forall x, e <> EvReturn x.
Proof.
  intros F H. destruct H as [m s k co m' x E|m v st k co m' x E|m v k co|m v k co m' x E|m s r k o]; inversion F; subst;
    (eexists; split; [econstructor; eassumption|split; [auto|discriminate]]).
Qed.
Lemma nil_mid {A} (l1 l2 : list A) : l1 ++ [] ++ l2 = l1 ++ l2.
Proof. reflexivity. Qed.

(** Every step of the example server is at most one of the library's entry points. *)
Definition mirrors (x : hsys) (y : sys) : Prop := sy_store y = hs_store x /\ tasks (hs_tasks x) (sy_tasks y) /\ logs (hs_log x) (sy_log y).
Lemma sim_step x z y : mirrors x y -> hstep up op a x z -> exists y', (y' = y \/ step up y y') /\ mirrors z y'.
Proof.
  destruct y as [m0 ts0 l0]. intros (E & T & L) S. unfold mirrors in *. cbn [sy_store sy_tasks sy_log] in *.
  destruct S as [m ts l h|m m' pre h p p' post l e Ha Hv|m pre h r post l|m pre h p post l]; cbn [hs_store hs_tasks hs_log] in *; subst m0.
  + destruct (call_of a h) as [c|] eqn:C.
    * eexists (mk_sys m ((c, code up c) :: ts0) l0). split; [right; constructor|]. split; [reflexivity|]. split; [|exact L].
      cbn. constructor; [exact C|now apply handler_follows|exact T].
    * exists (mk_sys m ts0 l0). split; [now left|]. split; [reflexivity|]. split; [|exact L]. cbn. rewrite (handler_refuses h C). now constructor.
  + destruct (tasks_split _ _ _ _ _ T) as (c1 & mid & c2 & -> & T1 & T2 & [(C & -> & ->)|(c & q & C & -> & F)]).
    * inversion Ha.
    * destruct (act_follows _ _ _ _ _ _ _ F Ha) as (q' & Hq & F' & N). exists (mk_sys m' (c1 ++ (c, q') :: c2) ((c, e) :: l0)).
      split; [right; now constructor|]. split; [reflexivity|]. split; cbn.
      -- apply tasks_app; [exact T1|]. now constructor.
      -- now constructor.
  + destruct (tasks_split _ _ _ _ _ T) as (c1 & mid & c2 & -> & T1 & T2 & [(C & -> & E)|(c & q & C & -> & F)]).
    * injection E as ->. exists (mk_sys m (c1 ++ c2) l0). split; [now left|]. split; [reflexivity|]. split; [now apply tasks_app|]. now constructor.
    * inversion F as [r'|? ? ? ?|? ? ? ? ?|? ? ? ?|? ? ? ?|? ? ? ? ?]; subst. exists (mk_sys m (c1 ++ c2) ((c, EvReturn r') :: l0)).
      split; [right; apply step_return|]. split; [reflexivity|]. split; [now apply tasks_app|]. now constructor.
  + destruct (tasks_split _ _ _ _ _ T) as (c1 & mid & c2 & -> & T1 & T2 & [(C & -> & ->)|(c & q & C & -> & F)]).
    * exists (mk_sys m (c1 ++ c2) l0). split; [now left|]. split; [reflexivity|]. split; [now apply tasks_app|exact L].
    * exists (mk_sys m (c1 ++ c2) l0). split; [right; eapply step_drop|]. split; [reflexivity|]. split; [now apply tasks_app|exact L].
Qed.
(** So every execution of the example server is one of the library's entry points. *)
Lemma simulated x : hreachable up op a x ->
  exists y, reachable up y /\ sy_store y = hs_store x /\ tasks (hs_tasks x) (sy_tasks y) /\ logs (hs_log x) (sy_log y).
Proof.
  unfold hreachable. remember hs_init as i eqn:Ei. intros H. induction H as [i|i x z H IH S]; subst i.
  - exists sys_init. split; [constructor|]. split; [reflexivity|]. split; constructor.
  - destruct (IH eq_refl) as (y & R & M). destruct (sim_step _ _ _ M S) as (y' & [->|Y] & M'); [now exists y|].
    exists y'. split; [|exact M']. eapply steps_snoc; eassumption.
Qed.

Lemma log_does hl l c e : logs hl l -> In (c, e) l -> (forall x, e <> EvReturn x) ->
  exists h, In (h, HDoes e) hl /\ call_of a h = Some c /\ forall s r o, e = EvValidate s r o -> o = app_validator op s r.
Proof.
  intros L H N. induction L as [|h hl l C L IH|h c' e' hl l C V N' L IH|h c' x hl l C L IH].
  - destruct H.
  - destruct (IH H) as (h' & H' & R). exists h'. split; [now right|exact R].
  - destruct H as [E|H]; [injection E as -> ->; exists h; split; [now left|auto]|]. destruct (IH H) as (h' & H' & R). exists h'. split; [now right|exact R].
  - destruct H as [E|H]; [injection E as _ E; now destruct (N x)|]. destruct (IH H) as (h' & H' & R). exists h'. split; [now right|exact R].
Qed.
Lemma log_reply hl l h r : logs hl l -> In (h, HReply r) hl ->
  call_of a h = None /\ r = RError 400 \/ exists c x, call_of a h = Some c /\ In (c, EvReturn x) l /\ r = finish a h x.
Proof.
  intros L H. induction L as [|h' hl l C L IH|h' c' e' hl l C V N' L IH|h' c' x hl l C L IH].
  - destruct H.
  - destruct H as [E|H]; [injection E as -> <-; auto|auto].
  - destruct H as [E|H]; [discriminate|]. destruct (IH H) as [?|(c & x & ? & ? & ?)]; [auto|]. right. exists c, x. split; [assumption|]. split; [now right|assumption].
  - destruct H as [E|H].
    + injection E as -> <-. right. exists c', x. split; [exact C|]. split; [now left|reflexivity].
    + destruct (IH H) as [?|(c & y & ? & ? & ?)]; [auto|]. right. exists c, y. split; [assumption|]. split; [now right|assumption].
Qed.
End S.

Lemma polled_update up y u o : reachable up y -> In (CPoll u, EvReturn (Ok (AStatus (Complete o)))) (sy_log y) ->
  exists r s0, In (CVerify u r, EvUpdate u (Complete o) (Ok tt)) (sy_log y) /\ validated u o s0 r (sy_log y).
Proof.
  intros R. unfold reachable in R. remember sys_init as i eqn:Ea. induction R as [i|i b c R IH H]; subst i; [intros []|].
  assert (I : inv b) by (apply (inv_reachable up); exact R). specialize (IH eq_refl).
  assert (M : In (CPoll u, EvReturn (Ok (AStatus (Complete o)))) (sy_log b) ->
            exists r s0, In (CVerify u r, EvUpdate u (Complete o) (Ok tt)) (sy_log c) /\ validated u o s0 r (sy_log c)).
  { intros Hj. destruct (IH Hj) as (r & s0 & U & V). exists r, s0. apply step_log in H as [->|(e & ->)]; [auto|].
    split; [now right|]. eapply validated_mono; [|exact V]. intros x Hx. now right. }
  intros Hj. destruct H as [m ts l c|m m' pre c p p' post l e Ha|m pre c r post l|m pre c p post l]; cbn [sy_log] in *; auto.
  - destruct Hj as [E|Hj]; [|auto]. injection E as -> ->. inversion Ha.
  - destruct Hj as [E|Hj]; [|auto]. injection E as -> ->.
    destruct I as [_ T _ _ _ GC]. cbn [sy_tasks sy_log] in *. destruct (T (CPoll u) (Done (Ok (AStatus (Complete o))))) as [_ J]; [apply in_mid; auto|].
    cbn in J. destruct J as (s0 & Hg & Es). destruct (GC _ _ _ _ Hg Es) as (n & od & r & s1 & -> & V). exists r, s1. split.
    + right. apply in_app_iff. right. now left.
    + eapply validated_mono; [|exact V]. intros x Hx. right. apply in_app_iff. right. now right.
Qed.
Lemma poll_returns_status up y u x : reachable up y -> In (CPoll u, EvReturn (Ok x)) (sy_log y) -> exists st, x = AStatus st.
Proof.
  assert (Sh : forall (p : prog answer), p = code up (CPoll u) \/ (exists r, p = Done (rmap AStatus r)) ->
     forall x, p = Done (Ok x) -> exists st, x = AStatus st).
  { intros p [->|([r|e] & ->)] z E; cbn in E; try discriminate. injection E as <-. eauto. }
  intros R. unfold reachable in R. remember sys_init as i eqn:Ea.
  assert (Inv : (forall p, In (CPoll u, p) (sy_tasks y) -> p = code up (CPoll u) \/ exists r, p = Done (rmap AStatus r))
     /\ (forall z, In (CPoll u, EvReturn (Ok z)) (sy_log y) -> exists st, z = AStatus st)).
  { induction R as [i|i b c R IH H]; subst i; [split; [intros p []|intros z []]|]. destruct (IH eq_refl) as [T L]. clear IH.
    destruct H as [m ts l c|m m' pre c p p' post l e Ha|m pre c r post l|m pre c p post l]; cbn [sy_tasks sy_log] in *.
    - split; [|exact L]. intros p [E|H]; [|auto]. injection E as -> <-. auto.
    - split.
      + intros q Hq. apply in_mid in Hq as [E|Hq]; [|apply T, in_mid; auto]. injection E as <- ->.
        destruct (T p) as [->|(r & ->)]; [apply in_mid; auto| |inversion Ha].
        cbn in Ha. inversion Ha; subst. right. exists (rmap s_status (get_session contended u m')). cbn. reflexivity.
      + intros z [E|H]; [|auto]. injection E as -> ->. inversion Ha.
    - split.
      + intros q Hq. apply T, in_mid. auto.
      + intros z [E|H]; [|auto]. injection E as -> ->. destruct (T (Done (Ok z))) as [E|([r|e] & E)]; [apply in_mid; auto| | |]; try discriminate E.
        injection E as ->. eauto.
    - split; [|exact L]. intros q Hq. apply T, in_mid. auto. }
  apply Inv.
Qed.

(* --------------------------------------------------------------------- C76 *)
Lemma member_in j l k v : members_are j l -> In (k, v) l -> exists o, j = JObj o /\ obj_get k o = Some v.
Proof. intros (o & E & _ & M) H. exists o. split; [exact E|]. now apply M. Qed.
Lemma told_success st info : says_success (status_json st) info -> st = Complete (OSuccess info).
Proof.
  intros H. destruct (member_in _ _ "result" (JStr "success") H) as (o & E & G); [cbn; auto|].
  destruct (member_in _ _ "info" info H) as (o' & E' & G'); [cbn; auto|].
  destruct st as [| | |[c|r|i]]; cbn [status_json] in E, E'; injection E as <-; injection E' as <-; cbn in G, G'; try discriminate.
  injection G' as ->. reflexivity.
Qed.
Lemma told_error st cause : says_error (status_json st) cause -> st = Complete (OError cause).
Proof.
  intros H. destruct (member_in _ _ "result" (JStr "error") H) as (o & E & G); [cbn; auto|].
  destruct (member_in _ _ "cause" (JStr cause) H) as (o' & E' & G'); [cbn; auto|].
  destruct st as [| | |[c|r|i]]; cbn [status_json] in E, E'; injection E as <-; injection E' as <-; cbn in G, G'; try discriminate.
  injection G' as ->. reflexivity.
Qed.
Lemma told_failure st reason : says_failure (status_json st) reason -> st = Complete (OFailure reason).
Proof.
  intros H. destruct (member_in _ _ "result" (JStr "failure") H) as (o & E & G); [cbn; auto|].
  destruct (member_in _ _ "reason" (JStr reason) H) as (o' & E' & G'); [cbn; auto|].
  destruct st as [| | |[c|r|i]]; cbn [status_json] in E, E'; injection E as <-; injection E' as <-; cbn in G, G'; try discriminate.
  injection G' as ->. reflexivity.
Qed.
Lemma members_of o l : keys_sorted o = true -> (forall kv, In kv o <-> In kv l) -> members_are (JObj o) l.
Proof.
  intros S H. exists o. split; [reflexivity|]. split; [exact S|]. intros k v. rewrite <- H. split; [apply obj_get_in|].
  apply ksorted_get_in, keys_sorted_iff, S.
Qed.

Lemma reported up op a x sid j st : hreachable up op a x -> answered (hs_log x) (HStatus sid) (RJson 200 j) ->
  (forall st', status_json st' = j -> st' = Complete st) ->
  exists u sid' body r s0,
    uuid_of_string sid = Some u /\ uuid_of_string sid' = Some u /\ judged (hs_log x) (HResponse sid' body) u st
    /\ from_form body = Ok r /\ app_validator op s0 r = st.
Proof.
  intros R A J. destruct (simulated up op a x R) as (y & Ry & _ & _ & L).
  destruct (log_reply _ _ _ _ _ _ L A) as [(_ & E)|(c & z & C & H & E)]; [discriminate|].
  cbn [call_of] in C. destruct (uuid_of_string sid) as [u|] eqn:U; [|discriminate]. cbn in C. injection C as <-.
  destruct z as [z|e]; [|discriminate E]. destruct (poll_returns_status _ _ _ _ Ry H) as (st' & ->). cbn in E. injection E as E.
  rewrite (J st' (eq_sym E)) in H. destruct (polled_update _ _ _ _ Ry H) as (r & s0 & Hu & V & _).
  destruct (log_does _ _ _ _ _ _ L Hu) as (h & Hh & C & _); [discriminate|].
  destruct (log_does _ _ _ _ _ _ L V) as (h' & Hh' & C' & W); [discriminate|]. specialize (W _ _ _ eq_refl).
  destruct h as [n f id|sid'|sid' body|sid']; cbn [call_of] in C; try discriminate; try (destruct (uuid_of_string sid'); discriminate).
  destruct (utf8_valid body); [|discriminate]. destruct (uuid_of_string sid') as [u'|] eqn:U'; [|discriminate].
  destruct (from_form body) as [r'|] eqn:F; [|discriminate]. injection C as -> ->.
  exists u, sid', body, r, s0. repeat split; auto.
Qed.

(* ---------------------------------------------------- requests handled one after the other *)
Section Alone.
Variable up : string -> option url.
Variable op : string -> res string.
Variable a : adapter.
Lemma hsteps_trans x y z : hsteps up op a x y -> hsteps up op a y z -> hsteps up op a x z.
Proof. intros H1 H2. induction H2; [exact H1|]. eapply hsteps_snoc; [apply IHhsteps, H1|eassumption]. Qed.
Lemma h_alone h : forall p m ts l m' calls r, run false (app_validator op) p m = (m', calls, Ok r) ->
  exists evs, hsteps up op a (mk_hsys m ((h, p) :: ts) l) (mk_hsys m' ts ((h, HReply r) :: evs ++ l)).
Proof.
  assert (G : forall p p' m m1 m' ts l r e, act m p m1 p' e -> (forall s r o, e = EvValidate s r o -> o = app_validator op s r) ->
     (exists evs, hsteps up op a (mk_hsys m1 ((h, p') :: ts) ((h, HDoes e) :: l)) (mk_hsys m' ts ((h, HReply r) :: evs ++ (h, HDoes e) :: l))) ->
     exists evs, hsteps up op a (mk_hsys m ((h, p) :: ts) l) (mk_hsys m' ts ((h, HReply r) :: evs ++ l))).
  { intros p p' m m1 m' ts l r e A V (evs & S). exists (evs ++ [(h, HDoes e)]). rewrite <- app_assoc. eapply hsteps_trans; [|exact S].
    eapply hsteps_snoc; [apply hsteps_refl|]. exact (h_act up op a m m1 [] h p p' ts l e A V). }
  induction p as [x|s k IH|u st k IH|u k IH|u k IH|s x k IH]; intros m ts l m' calls r; cbn [run].
  - intros H. injection H as <- <- ->. exists []. eapply hsteps_snoc; [apply hsteps_refl|]. exact (h_return up op a m [] h r ts l).
  - destruct (initiate false s m) as [m1 y] eqn:E. intros H. eapply (G _ _ _ _ _ _ _ _ (EvInitiate s y)); [eapply act_initiate; exact E|discriminate|apply (IH y _ _ _ _ _ _ H)].
  - destruct (update_status false u st m) as [m1 y] eqn:E. intros H. eapply (G _ _ _ _ _ _ _ _ (EvUpdate u st y)); [eapply act_update; exact E|discriminate|apply (IH y _ _ _ _ _ _ H)].
  - intros H. eapply (G _ _ _ _ _ _ _ _ (EvGet u (get_session false u m))); [apply act_get|discriminate|apply (IH _ _ _ _ _ _ _ H)].
  - destruct (remove_session false u m) as [m1 y] eqn:E. intros H. eapply (G _ _ _ _ _ _ _ _ (EvRemove u y)); [eapply act_remove; exact E|discriminate|apply (IH y _ _ _ _ _ _ H)].
  - destruct (run false (app_validator op) (k (app_validator op s x)) m) as [[m1 cs] y] eqn:E. intros H. injection H as <- <- ->.
    eapply (G _ (k (app_validator op s x)) _ m _ _ _ _ (EvValidate s x (app_validator op s x))); [apply act_validate| |apply (IH _ _ _ _ _ _ _ E)].
    intros s2 r2 o2 X. now injection X as <- <- <-.
Qed.
Fixpoint serve (hs : list hreq) (m : store) : store * list (hreq * res reply) :=
  match hs with
  | [] => (m, [])
  | h :: hs => let '(m1, _, r) := run false (app_validator op) (handler up a h) m in
               let (m2, rs) := serve hs m1 in (m2, (h, r) :: rs)
  end.
Lemma served : forall hs m l m' rs, hreachable up op a (mk_hsys m [] l) -> serve hs m = (m', rs) -> (forall h e, ~ In (h, Err e) rs) ->
  exists l', hreachable up op a (mk_hsys m' [] l') /\ (forall h r, In (h, Ok r) rs -> answered l' h r) /\ (forall h r, answered l h r -> answered l' h r).
Proof.
  induction hs as [|h hs IH]; cbn [serve]; intros m l m' rs R E N.
  - injection E as <- <-. exists l. split; [exact R|]. split; [intros ? ? []|auto].
  - destruct (run false (app_validator op) (handler up a h) m) as [[m1 cs] r] eqn:Er. destruct (serve hs m1) as [m2 rs'] eqn:Es. injection E as <- <-.
    destruct r as [r|e]; [|destruct (N h e); now left].
    destruct (h_alone h _ _ [] l _ _ _ Er) as (evs & S).
    destruct (IH m1 ((h, HReply r) :: evs ++ l) m2 rs') as (l' & R' & A & K); [|exact Es|intros h' e' H; apply (N h' e'); now right|].
    + eapply hsteps_trans; [exact R|]. eapply hsteps_trans; [|exact S]. eapply hsteps_snoc; [apply hsteps_refl|]. apply h_start.
    + exists l'. split; [exact R'|]. split.
      * intros h' r' [X|H]; [|auto]. injection X as <- <-. apply K. now left.
      * intros h' r' H. apply K. right. apply in_app_iff. auto.
Qed.
Lemma served_init hs : forallb (fun x => match snd x with Ok _ => true | Err _ => false end) (snd (serve hs [])) = true ->
  exists x, hreachable up op a x /\ forall h r, In (h, Ok r) (snd (serve hs [])) -> answered (hs_log x) h r.
Proof.
  intros H. destruct (serve hs []) as [m' rs] eqn:E. destruct (served hs [] [] m' rs) as (l' & R & A & _); [constructor|exact E| |].
  - intros h e X. rewrite forallb_forall in H. specialize (H _ X). discriminate H.
  - exists (mk_hsys m' [] l'). split; [exact R|exact A].
Qed.
End Alone.

Definition toy_adapter (encrypted : bool) : adapter :=
  match app_new simple_parse (fun c => Ok (c_spki c)) (named ["v.example"] "K") (mk_signer (Ok "ES256") (Ok "k") (fun _ => "sig"))
          [("kty", JStr "EC")] (toy_url "https://v.example/") encrypted with
  | Ok a => a
  | Err _ => mk_app (mk_verifier toy_client [] None (toy_url "https://x/")) toy_wm (toy_url "https://x/")
  end.
Definition toy_open (s : string) : res string := if String.eqb s "a.b.c" then Ok "{}" else Err "bad".
Definition toy_sid : string := uuid_str 7%N.
Definition toy_history (body : string) : list hreq :=
  [HInitiate (Some "nonce") 1%N 7%N; HStatus toy_sid; HRequest toy_sid; HResponse toy_sid body; HStatus toy_sid].

Lemma toy_ends body j :
  forallb (fun x => match snd x with Ok _ => true | Err _ => false end)
    (snd (serve simple_parse toy_open (toy_adapter true) (toy_history body) [])) = true ->
  nth_error (snd (serve simple_parse toy_open (toy_adapter true) (toy_history body) [])) 4 = Some (HStatus toy_sid, Ok (RJson 200 j)) ->
  exists x, hreachable simple_parse toy_open (toy_adapter true) x /\ answered (hs_log x) (HStatus toy_sid) (RJson 200 j).
Proof.
  intros H E. destruct (served_init _ _ _ _ H) as (x & R & A). exists x. split; [exact R|]. apply A. eapply nth_error_In. exact E.
Qed.
Lemma run_pfinish {A B} (f : res A -> B) v p : forall m, run false v (pfinish f p) m = let '(m', cs, x) := run false v p m in (m', cs, Ok (f x)).
Proof.
  induction p as [r|s k IH|u st k IH|u k IH|u k IH|s r k IH]; intros m; cbn [pfinish run]; try apply IH; try reflexivity.
  - destruct (update_status false u st m). apply IH.
  - destruct (remove_session false u m). apply IH.
  - rewrite IH. destruct (run false v (k (v s r)) m) as [[m' cs] x]. reflexivity.
Qed.

(* --------------------------------------------------------------------- C76 *)
(** C76: the example verifier reports success for a session only if a response was POSTed to that session that is a
    vp_token, or is encrypted to the verifier's key and decrypts to JSON; the information reported is about that
    response. *)
Lemma c76_success_pf
  : forall (url_parse : string -> option url) (jwe_open : string -> res string) (a : adapter) (x : hsys)
      (sid : string) (j info : json),
    hreachable url_parse jwe_open a x -> answered (hs_log x) (HStatus sid) (RJson 200 j) -> says_success j info ->
    exists u sid' body r,
      uuid_of_string sid = Some u /\ uuid_of_string sid' = Some u
      /\ judged (hs_log x) (HResponse sid' body) u (OSuccess info)
      /\ from_form body = Ok r /\ taken jwe_open r info.
Proof.
  intros up op a x sid j info R A S. destruct (reported up op a x sid j (OSuccess info) R A) as (u & sid' & body & r & s0 & U & U' & J & F & V).
  { intros st' <-. now apply told_success. }
  exists u, sid', body, r. repeat split; auto. destruct r as [un|jwe]; cbn in V.
  - injection V as <-. left. exists un. split; [reflexivity|]. apply members_of; [reflexivity|]. cbn. intuition.
  - right. unfold decrypt, rbind, ok_or in V. destruct (op jwe) as [t|] eqn:O; [|discriminate]. destruct (json_of_text t) as [v|] eqn:T; [|discriminate].
    injection V as <-. exists jwe, t, v. repeat split; auto. apply members_of; [reflexivity|]. cbn. intuition.
Qed.

Example c76_success_ex :
  exists x j info,
    hreachable simple_parse toy_open (toy_adapter true) x /\ answered (hs_log x) (HStatus toy_sid) (RJson 200 j) /\ says_success j info.
Proof.
  set (i := JObj [("decrypted_payload", JObj []); ("message", JStr "JARM response decrypted and verified")]).
  destruct (toy_ends "response=a.b.c" (JObj [("info", i); ("result", JStr "success"); ("status", JStr "complete")])) as (x & R & A);
    [vm_compute; reflexivity|vm_compute; reflexivity|].
  exists x. eexists. exists i. split; [exact R|]. split; [exact A|]. apply members_of; [reflexivity|]. cbn. intuition.
Qed.

(** C76: it reports an error only if something was POSTed to the session as an encrypted response that its key does
    not open to JSON. *)
Lemma c76_error_pf
  : forall (url_parse : string -> option url) (jwe_open : string -> res string) (a : adapter) (x : hsys)
      (sid : string) (j : json) (cause : string),
    hreachable url_parse jwe_open a x -> answered (hs_log x) (HStatus sid) (RJson 200 j) -> says_error j cause ->
    exists u sid' body jwe,
      uuid_of_string sid = Some u /\ uuid_of_string sid' = Some u
      /\ judged (hs_log x) (HResponse sid' body) u (OError cause)
      /\ from_form body = Ok (Jwt jwe) /\ unopened jwe_open jwe.
Proof.
  intros up op a x sid j cause R A S. destruct (reported up op a x sid j (OError cause) R A) as (u & sid' & body & r & s0 & U & U' & J & F & V).
  { intros st' <-. now apply told_error. }
  destruct r as [un|jwe]; cbn in V; [discriminate|]. exists u, sid', body, jwe. repeat split; auto.
  intros text v O T. unfold decrypt, rbind, ok_or in V. rewrite O, T in V. discriminate.
Qed.

Example c76_error_ex :
  exists x j cause,
    hreachable simple_parse toy_open (toy_adapter true) x /\ answered (hs_log x) (HStatus toy_sid) (RJson 200 j) /\ says_error j cause.
Proof.
  destruct (toy_ends "response=a.b" (JObj [("cause", JStr "Failed to decrypt JARM: bad"); ("result", JStr "error"); ("status", JStr "complete")]))
    as (x & R & A); [vm_compute; reflexivity|vm_compute; reflexivity|].
  exists x. eexists. exists "Failed to decrypt JARM: bad". split; [exact R|]. split; [exact A|]. apply members_of; [reflexivity|]. cbn. intuition.
Qed.

(** C76: it never reports that the verification of a response failed. *)
Lemma c76_no_failure_pf
  : forall (url_parse : string -> option url) (jwe_open : string -> res string) (a : adapter) (x : hsys)
      (sid : string) (j : json) (reason : string),
    hreachable url_parse jwe_open a x -> answered (hs_log x) (HStatus sid) (RJson 200 j) -> ~ says_failure j reason.
Proof.
  intros up op a x sid j reason R A S. destruct (reported up op a x sid j (OFailure reason) R A) as (u & sid' & body & r & s0 & U & U' & J & F & V).
  { intros st' <-. now apply told_failure. }
  destruct r as [un|jwe]; cbn in V; [discriminate|]. destruct (decrypt op jwe); discriminate.
Qed.
Example c76_no_failure_ex :
  exists x j, hreachable simple_parse toy_open (toy_adapter true) x /\ answered (hs_log x) (HStatus toy_sid) (RJson 200 j).
Proof. destruct c76_success_ex as (x & j & info & R & A & _). eauto. Qed.

(** C76: success does not mean that anything was presented: whatever was asked for, in whatever mode, a POST of an
    empty vp_token without state to the session, which takes nothing but the session's id, is answered with success
    and so is the session's status afterwards. *)
Lemma c76_unchecked_refuted_pf
  : forall (jwe_open : string -> res string) (m : store) (u : uuid) (s : session),
    (u < 2 ^ 128)%N -> st_get u m = Some s ->
    exists m' calls j info,
      run false (app_validator jwe_open) (receive_response (uuid_str u) "vp_token=%7B%7D") m = (m', calls, Ok (RJson 200 (JObj [])))
      /\ run false (app_validator jwe_open) (get_status (uuid_str u)) m' = (m', [], Ok (RJson 200 j))
      /\ says_success j info
      /\ members_are info [("message", JStr "Verification successful"); ("credentials_received", JInt 0)].
Proof.
  intros op m u s B G. unfold receive_response, get_status. rewrite (uuid_back u B).
  replace (utf8_valid "vp_token=%7B%7D") with true by (vm_compute; reflexivity).
  destruct (from_form "vp_token=%7B%7D") as [r|] eqn:F; [|vm_compute in F; discriminate]. vm_compute in F. injection F as <-.
  rewrite run_pfinish. pose proof (c40_verify_response_pf u (Unencoded (mk_unencoded [] None)) (app_validator op) m) as V.
  rewrite G in V. destruct V as (m' & V & _ & s' & G' & _ & St). unfold verify_response in V. rewrite V.
  exists m', [(s, Unencoded (mk_unencoded [] None))]. eexists.
  exists (JObj [("credentials_received", JInt 0); ("message", JStr "Verification successful")]). split; [reflexivity|].
  rewrite run_pfinish. unfold poll_code. cbn [run]. unfold get_session, ok_or. rewrite G'. cbn [run rmap status_reply]. rewrite St. cbn [status_json app_validator].
  split; [reflexivity|]. split; (apply members_of; [reflexivity|]; cbn; intuition).
Qed.

Example c76_unchecked_refuted_ex :
  let r := serve simple_parse toy_open (toy_adapter true) [HInitiate (Some "nonce") 1%N 7%N; HRequest toy_sid] [] in
  match st_get 7%N (fst r) with Some s => obj_get "response_mode" (aro_to_obj (s_request s)) | None => None end = Some (JStr "direct_post.jwt").
Proof. vm_compute. reflexivity. Qed.

(* --------------------------------------------------------------------- C78 *)
(** C78: the identifier that the server hands out for a session leads back to that session; and no text is read as
    an identifier outside the range of UUIDs. *)
Lemma c78_ids_pf
  : forall (u : uuid) (sid : string),
    ((u < 2 ^ 128)%N -> uuid_of_string (uuid_str u) = Some u)
    /\ (uuid_of_string sid = Some u -> (u < 2 ^ 128)%N).
Proof. intros u sid. split; [apply uuid_back|apply uuid_range]. Qed.

Example c78_ids_ex :
  uuid_of_string "67e55044-10b1-426f-9247-bb680e5fe0c8" = Some 0x67e5504410b1426f9247bb680e5fe0c8%N
  /\ uuid_str 0x67e5504410b1426f9247bb680e5fe0c8%N = "67e55044-10b1-426f-9247-bb680e5fe0c8"
  /\ uuid_of_string "{67E55044-10b1-426f-9247-bb680e5fe0c8}" = Some 0x67e5504410b1426f9247bb680e5fe0c8%N
  /\ uuid_of_string "67e55044-10b1-426f-9247-bb680e5fe0cg" = None.
Proof. vm_compute. auto. Qed.

(** C78: the status endpoint answers with the stored status of the session, with 404 for an unknown session and with
    400 for something that is no identifier, and changes nothing. *)
Lemma c78_status_pf
  : forall (validator : session -> auth_response -> outcome) (sid : string) (m : store),
    exists r, run false validator (get_status sid) m = (m, [], Ok r)
    /\ match uuid_of_string sid with
       | None => r = RError 400
       | Some u => match st_get u m with
                   | None => r = RError 404
                   | Some s => exists j, r = RJson 200 j /\ tells (s_status s) j
                   end
       end.
Proof.
  intros v sid m. unfold get_status. destruct (uuid_of_string sid) as [u|]; [|cbn [run]; eauto].
  rewrite run_pfinish. unfold poll_code. cbn [run]. unfold get_session, ok_or. destruct (st_get u m) as [s|]; cbn [run rmap status_reply]; [|eauto].
  eexists. split; [reflexivity|]. eexists. split; [reflexivity|].
  destruct (s_status s) as [| | |[c|c|c]]; cbn [tells status_json]; unfold says_status, says_success, says_failure, says_error;
    (apply members_of; [reflexivity|]; cbn; intuition).
Qed.

Example c78_status_ex :
  run false (fun _ _ => OError "") (get_status toy_sid) [(7%N, set_status (toy_session 7%N) (Complete (OFailure "no")))]
  = ([(7%N, set_status (toy_session 7%N) (Complete (OFailure "no")))], [],
     Ok (RJson 200 (JObj [("reason", JStr "no"); ("result", JStr "failure"); ("status", JStr "complete")])))
  /\ snd (run false (fun _ _ => OError "") (get_status toy_sid) []) = Ok (RError 404)
  /\ snd (run false (fun _ _ => OError "") (get_status "7") []) = Ok (RError 400).
Proof. vm_compute. auto. Qed.

(** C78: the request endpoint answers with the session's request object, with 404 for an unknown session and with
    400 for something that is no identifier. *)
Lemma c78_request_pf
  : forall (validator : session -> auth_response -> outcome) (sid : string) (m : store),
    exists m' r, run false validator (get_request_object sid) m = (m', [], Ok r)
    /\ match uuid_of_string sid with
       | None => r = RError 400 /\ m' = m
       | Some u => match st_get u m with
                   | None => r = RError 404 /\ m' = m
                   | Some s => r = RJwt (s_jwt s) /\ m' = fst (retrieve u m)
                   end
       end.
Proof.
  intros v sid m. unfold get_request_object. destruct (uuid_of_string sid) as [u|]; [|cbn [run]; eauto].
  rewrite run_pfinish. unfold retrieve, run_plain, retrieve_code. cbn [run]. unfold get_session, ok_or. destruct (st_get u m) as [s|] eqn:G; cbn [run]; [|eauto].
  destruct (status_lt (s_status s) SentRequest); cbn [run]; [|eauto]. unfold update_status. rewrite G. cbn [run rmap request_reply]. eauto.
Qed.

Example c78_request_ex :
  snd (run false (fun _ _ => OError "") (get_request_object toy_sid) [(7%N, toy_session 7%N)]) = Ok (RJwt "h.p.s").
Proof. vm_compute. reflexivity. Qed.

(** C78: the response endpoint answers 200 only for a well-formed response to a known session, and then has judged
    that response, once; otherwise it answers with an error, judges nothing and changes nothing. *)
Lemma c78_response_pf
  : forall (jwe_open : string -> res string) (sid body : string) (m : store),
    let answer := run false (app_validator jwe_open) (receive_response sid body) m in
    (forall u r s, utf8_valid body = true -> uuid_of_string sid = Some u -> from_form body = Ok r -> st_get u m = Some s ->
       exists m' s', answer = (m', [(s, r)], Ok (RJson 200 (JObj []))) /\ st_get u m' = Some s'
         /\ same_request s s' /\ s_status s' = Complete (app_validator jwe_open s r)
         /\ forall u', u' <> u -> st_get u' m' = st_get u' m)
    /\ ((utf8_valid body = false \/ uuid_of_string sid = None \/ (forall r, from_form body <> Ok r)) -> answer = (m, [], Ok (RError 400)))
    /\ (forall u r, utf8_valid body = true -> uuid_of_string sid = Some u -> from_form body = Ok r -> st_get u m = None ->
          answer = (m, [], Ok (RError 500))).
Proof.
  intros op sid body m. cbn zeta. unfold receive_response. split; [|split].
  - intros u r s -> -> -> G. rewrite run_pfinish. pose proof (c40_verify_response_pf u r (app_validator op) m) as V. rewrite G in V.
    destruct V as (m' & V & O & s' & G' & S & St). unfold verify_response in V. rewrite V. exists m', s'. repeat split; auto; apply S.
  - intros H. destruct (utf8_valid body); [|reflexivity]. destruct (uuid_of_string sid) as [u|]; [|reflexivity].
    destruct (from_form body) as [r|e]; [|reflexivity]. destruct H as [H|[H|H]]; [discriminate|discriminate|]. now destruct (H r).
  - intros u r -> -> -> G. rewrite run_pfinish. unfold verify_code. cbn [run]. unfold get_session, ok_or. rewrite G. reflexivity.
Qed.

Example c78_response_ex :
  snd (run false (app_validator toy_open) (receive_response toy_sid "response=a.b.c") [(7%N, toy_session 7%N)]) = Ok (RJson 200 (JObj []))
  /\ run false (app_validator toy_open) (receive_response toy_sid "response=a.b.c") [] = ([], [], Ok (RError 500))
  /\ run false (app_validator toy_open) (receive_response toy_sid "state=s") [(7%N, toy_session 7%N)] = ([(7%N, toy_session 7%N)], [], Ok (RError 400)).
Proof. vm_compute. auto. Qed.

(** C78: whatever else the server is doing, a request whose path holds no identifier, or a response that cannot be
    read, is answered with 400 and nothing is done for it. *)
Lemma c78_refused_pf
  : forall (url_parse : string -> option url) (jwe_open : string -> res string) (a : adapter) (x : hsys) (h : hreq) (e : hevent),
    hreachable url_parse jwe_open a x -> unreadable h -> In (h, e) (hs_log x) -> e = HReply (RError 400).
Proof.
  intros up op a x h e R U H. destruct (simulated up op a x R) as (y & _ & _ & _ & L).
  assert (C : call_of a h = None).
  { destruct h as [n f id|sid|sid body|sid]; cbn in U |- *; [destruct U|now rewrite U| |now rewrite U].
    destruct (utf8_valid body); [|reflexivity]. destruct (uuid_of_string sid); [|reflexivity].
    destruct (from_form body) as [r|]; [|reflexivity]. destruct U as [U|[U|U]]; [discriminate|discriminate|]. now destruct (U r). }
  clear U R. induction L as [|h' hl l C' L IH|h' c' e' hl l C' V N' L IH|h' c' z hl l C' L IH].
  - destruct H.
  - destruct H as [E|H]; [injection E as -> <-; reflexivity|auto].
  - destruct H as [E|H]; [injection E as -> <-; congruence|auto].
  - destruct H as [E|H]; [injection E as -> <-; congruence|auto].
Qed.

Example c78_refused_ex :
  unreadable (HStatus "7") /\ unreadable (HResponse toy_sid "state=s")
  /\ exists x, hreachable simple_parse toy_open (toy_adapter true) x /\ answered (hs_log x) (HStatus "7") (RError 400)
       /\ answered (hs_log x) (HResponse toy_sid "state=s") (RError 400).
Proof.
  split; [vm_compute; reflexivity|]. split.
  { right. right. intros r X. destruct (from_form "state=s") eqn:E; [vm_compute in E; discriminate|discriminate X]. }
  destruct (served_init simple_parse toy_open (toy_adapter true) [HStatus "7"; HResponse toy_sid "state=s"]) as (x & R & A);
    [vm_compute; reflexivity|].
  exists x. split; [exact R|]. split; apply A; [apply nth_error_In with 0|apply nth_error_In with 1]; vm_compute; reflexivity.
Qed.

(** C78: exactly the paths with one segment after "/status/" ask for a status. *)
Lemma c78_route_pf
  : forall path sid, status_route path = Some sid <-> path = "/status/" +:+ sid /\ sid <> "" /\ has_char "/" sid = false.
Proof.
  intros path sid. unfold status_route. split.
  - destruct (strip_prefix "/status/" path) as [seg|] eqn:E; [|discriminate]. apply strip_prefix_some in E.
    destruct (String.eqb_spec seg ""); [discriminate|]. destruct (has_char "/" seg) eqn:H; [discriminate|]. intros [= <-]. auto.
  - intros (-> & N & H). rewrite strip_prefix_app, H. now destruct (String.eqb_spec sid "").
Qed.
Example c78_route_ex : status_route "/status/7" = Some "7" /\ status_route "/status/" = None /\ status_route "//status/7" = None.
Proof. repeat split; reflexivity. Qed.

(** C78: the status URL handed out for a session is not one that the server answers when the public URL ends in a
    slash, as every URL without a path does: the path then begins with two slashes. *)
Lemma c78_status_url_refuted_pf
  : forall (a : adapter) (id : uuid) (origin : string),
    url_str (ap_public a) = origin +:+ "/" ->
    exists path, status_url a id = origin +:+ path /\ path = "//status/" +:+ uuid_str id /\ status_route path = None.
Proof.
  intros a id origin H. exists ("//status/" +:+ uuid_str id). split.
  - unfold status_url. rewrite H. clear H. induction origin as [|c r IH]; [reflexivity|]. cbn. now f_equal.
  - split; reflexivity.
Qed.

Example c78_status_url_refuted_ex :
  url_str (ap_public (toy_adapter true)) = "https://v.example" +:+ "/"
  /\ status_url (toy_adapter true) 7%N = "https://v.example//status/00000000-0000-0000-0000-000000000007"
  /\ status_route "/status/00000000-0000-0000-0000-000000000007" = Some toy_sid.
Proof. vm_compute. auto. Qed.
