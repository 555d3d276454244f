(** Proofs about the command line verifier while it runs. *)
From Coq Require Import Lia ZArith.
From Verif Require Import Base BaseFacts Utf8 Json Serde Url UrlEncoded Params Dcql Request Response Session Builder Server ExVerifier ExCli ExConsole.
From Verif Require Import MapFacts Spec SpecObject SpecSession StoreFacts PfBuilder UuidFacts PfSession PfServer SpecExample PfExample SpecVerifierEx PfExServer
  PfExInitiate SpecCli PfExCli SpecConsole.

Lemma validated_mono id L L' h r o : incl L L' -> validated id L h r o -> validated id L' h r o.
Proof. intros I (P & s & H). split; [exact P|]. exists s. now apply I. Qed.
Lemma truthful_mono id L L' d : incl L L' -> truthful id L d -> truthful id L' d.
Proof.
  intros I. destruct d as [| | | |info|reason]; cbn [truthful]; auto.
  - intros (sid & s & U & H). eauto 6.
  - intros (sid & b & u & U & V & H). eauto 8.
  - intros (h & t & V & H). eauto 6 using validated_mono.
  - intros (h & t & V). eauto using validated_mono.
Qed.
Lemma honest_mono id jwt L L' h a : incl L L' -> honest id jwt L h a -> honest id jwt L' h a.
Proof.
  intros I. destruct a; cbn [honest]; auto. intros (E1 & E2 & r & o & V & H). split; [exact E1|]. split; [exact E2|]. eauto 6 using validated_mono.
Qed.

Section Run.
Variables (id : uuid) (s0 : session).

(** What remains of a request does only what the events so far allow. *)
Fixpoint ok_prog (h : creq) (L : list cevent) (p : cprog) : Prop :=
  match p with
  | CDone a => honest id (s_jwt s0) L h a
  | CSet d k => truthful id L d /\ ok_prog h L k
  | CRead k => ok_prog h L k
  | CShow d k => truthful id L d /\ ok_prog h L k
  | CNotify k => (exists h' r o, validated id L h' r o) /\ ok_prog h L k
  | CGet u k => forall x, (forall s, x = Ok s -> u = id /\ s_jwt s = s_jwt s0) -> ok_prog h (EvDoes h (EvGet u x) :: L) (k x)
  | CUpdate u st k => (forall o, st = Complete o -> u = id -> exists r, validated id L h r o)
      /\ forall x, (x = Ok tt -> u = id) -> ok_prog h (EvDoes h (EvUpdate u st x) :: L) (k x)
  | CInitiate _ _ | CRemove _ _ => False
  | CValidate s r k => let o := cli_validator s r in let L' := EvDoes h (EvValidate s r o) :: L in
      truthful id L' (shown_for o) /\ (exists h' r o, validated id L' h' r o) /\ ok_prog h L' (k o)
  end.
Lemma incl_both (e : cevent) L L' : incl L L' -> incl (e :: L) (e :: L').
Proof. intros I x [->|H]; [now left|right; now apply I]. Qed.
Lemma some_validated L L' : incl L L' -> (exists h r o, validated id L h r o) -> exists h r o, validated id L' h r o.
Proof. intros I (h & r & o & V). eauto using validated_mono. Qed.
Lemma ok_mono h p : forall L L', incl L L' -> ok_prog h L p -> ok_prog h L' p.
Proof.
  induction p as [a|d k IH|k IH|d k IH|k IH|u k IH|u st k IH|s k IH|u k IH|s r k IH]; intros L L' I; cbn [ok_prog]; auto.
  - now apply honest_mono.
  - intros [T O]. eauto using truthful_mono.
  - eauto.
  - intros [T O]. eauto using truthful_mono.
  - intros [T O]. eauto using some_validated.
  - intros H x Hx. eapply IH; [apply incl_both, I|]. auto.
  - intros [H1 H2]. split.
    + intros o E U. destruct (H1 o E U) as (r & V). eauto using validated_mono.
    + intros x Hx. eapply IH; [apply incl_both, I|]. auto.
  - intros (H1 & H2 & H3). pose proof (incl_both (EvDoes h (EvValidate s r (cli_validator s r))) L L' I) as I'.
    split; [eauto using truthful_mono|]. split; [eauto using some_validated|]. eauto.
Qed.
Lemma fetch_500 jwt L sid : honest id jwt L (CFetch sid) (RError 500).
Proof. right. split; [|reflexivity]. intros (? & ? & E & _). discriminate. Qed.
Lemma post_500 jwt L sid body : utf8_valid body = true -> honest id jwt L (CResponse sid body) (RError 500).
Proof. intros V. right. split; [|reflexivity]. intros (? & ? & E & F). injection E as _ <-. congruence. Qed.
Lemma post_400 jwt L sid body : utf8_valid body = false -> honest id jwt L (CResponse sid body) (RError 400).
Proof. intros V. left. split; [|reflexivity]. exists sid, body. auto. Qed.
Lemma handler_ok h L : In (EvArrived h) L -> ok_prog h L (chandler h).
Proof.
  intros A. destruct h as [sid|sid body]; cbn [chandler].
  - destruct (uuid_of_string sid) as [u|] eqn:U; [|apply fetch_500]. unfold retrieve_code. cbn [within ok_prog]. intros x Hx.
    destruct x as [s|e]; [|apply fetch_500]. destruct (Hx s eq_refl) as [-> J].
    assert (T : forall L, truthful id (EvDoes (CFetch sid) (EvGet id (Ok s)) :: L) DFetched) by (intros L0; exists sid, s; split; [exact U|now left]).
    assert (Hn : forall L, honest id (s_jwt s0) L (CFetch sid) (RJwt (s_jwt s))) by (intros L0; split; [exact J|]; eauto).
    destruct (status_lt (s_status s) SentRequest); cbn [within ok_prog].
    + split; [discriminate|]. intros x _. destruct x as [[]|e]; cbn [rmap ok_prog]; [|apply fetch_500]. split; [|apply Hn].
      eapply truthful_mono; [|apply T]. intros e0 He. right. exact He.
    + split; [apply T|apply Hn].
  - destruct (utf8_valid body) eqn:V; [|now apply post_400]. destruct (uuid_of_string sid) as [u|] eqn:U; [|now apply post_500]. cbn [ok_prog].
    split; [exists sid, body, u; auto|]. destruct (from_form body) as [r|e] eqn:F; [|now apply post_500]. unfold verify_code. cbn [within ok_prog].
    intros x Hx. destruct x as [s|e]; [|now apply post_500]. destruct (Hx s eq_refl) as [-> J]. cbn [within ok_prog].
    match goal with |- truthful id ?L0 _ /\ _ => assert (Vd : validated id L0 (CResponse sid body) r (cli_validator s r)) end.
    { split; [exists sid, body; auto|]. exists s. now left. }
    split; [|split; [eauto|]].
    + destruct r as [t|j]; cbn [cli_validator shown_for truthful] in *.
      * eexists _, t. split; [exact Vd|]. apply members_of; [reflexivity|]. cbn [In]. unfold vp_len, jstrs. tauto.
      * eauto.
    + split. { intros o E _. injection E as <-. eauto. }
      intros x _. destruct x as [[]|e]; cbn [response_reply honest]; [|now apply post_500]. split; [reflexivity|]. split; [reflexivity|]. exists r, (cli_validator s r).
      split; [|now left]. eapply validated_mono; [|exact Vd]. intros e0 He. now right.
Qed.

Definition good (e : cevent) (L : list cevent) : Prop :=
  match e with
  | EvShown h d => truthful id L d
  | EvAnswered h a => honest id (s_jwt s0) L h a
  | EvCompleted => exists h r o, validated id L h r o
  | _ => True
  end.
Fixpoint good_log (L : list cevent) : Prop := match L with [] => True | e :: L => good e L /\ good_log L end.
Lemma good_at L : good_log L -> forall later e earlier, L = (later ++ e :: earlier)%list -> good e earlier.
Proof.
  induction L as [|a L IH]; intros G later e earlier E; [destruct later; discriminate|]. destruct G as [G1 G2]. destruct later as [|b later].
  - injection E as <- <-. exact G1.
  - injection E as -> E. eauto.
Qed.
Definition stored (m : store) (L : list cevent) : Prop :=
  (exists s, st_get id m = Some s /\ same_request s0 s
     /\ forall o, s_status s = Complete o -> s_status s0 = Complete o \/ exists h r, validated id L h r o /\ In (EvDoes h (EvUpdate id (Complete o) (Ok tt))) L)
  /\ forall u, u <> id -> st_get u m = None.
Lemma stored_mono m L L' : incl L L' -> stored m L -> stored m L'.
Proof.
  intros I ((s & G & R & H) & O). split; [|exact O]. exists s. split; [exact G|]. split; [exact R|]. intros o E. destruct (H o E) as [?|(h & r & V & X)]; [auto|].
  right. eauto 6 using validated_mono.
Qed.
Record inv (x : csys) : Prop := {
  i_store : stored (cs_store x) (cs_log x);
  i_display : truthful id (cs_log x) (cs_display x);
  i_tasks : Forall (fun t => ok_prog (fst t) (cs_log x) (snd t)) (cs_tasks x);
  i_notified : cs_notified x = true -> exists h r o, validated id (cs_log x) h r o;
  i_log : good_log (cs_log x)
}.
Lemma tasks_mono L L' ts : incl L L' -> Forall (fun t => ok_prog (fst t) L (snd t)) ts -> Forall (fun t => ok_prog (fst t) L' (snd t)) ts.
Proof. intros I. apply Forall_impl. intros t. now apply ok_mono. Qed.
Lemma get_stored m L c u : stored m L -> forall s, get_session c u m = Ok s -> u = id /\ s_jwt s = s_jwt s0.
Proof.
  intros ((s1 & G & (_ & J & _) & _) & O) s. unfold get_session. destruct c; [discriminate|]. destruct (N.eq_dec u id) as [->|N0].
  - rewrite G. cbn. intros E. injection E as <-. auto.
  - rewrite (O u N0). discriminate.
Qed.
Lemma inv_step x y : inv x -> cstep x y -> inv y.
Proof.
  intros [S D T N G] H.
  destruct H as [m d ts n l h|m d n m' d' n' pre h p p' post o l new A|m d n pre h r post o l|m d n pre h p post o l|m d ts l|m d ts n l];
    cbn [cs_store cs_display cs_tasks cs_notified cs_log cs_over] in *.
  - assert (I1 : incl l (EvArrived h :: l)) by (intros e He; now right).
    constructor; cbn [cs_store cs_display cs_tasks cs_notified cs_log]; eauto using stored_mono, truthful_mono, some_validated.
    + constructor; [|eauto using tasks_mono]. apply handler_ok. now left.
    + split; [exact I|exact G].
  - apply Forall_app in T as [T1 T2]. inversion T2 as [|? ? P T3]; subst. cbn [fst snd] in P.
    assert (I1 : incl l (new ++ l)) by (intros e He; apply in_or_app; now right).
    assert (St : stored m' (new ++ l) /\ truthful id (new ++ l) d' /\ ok_prog h (new ++ l) p' /\ (n' = true -> exists h r o, validated id (new ++ l) h r o)
                 /\ good_log (new ++ l)).
    { inversion A; subst; cbn [ok_prog app] in *.
      - destruct P as [P1 P2]. auto.
      - auto 6.
      - destruct P as [P1 P2]. split; [eauto using stored_mono|]. split; [eauto using truthful_mono|]. split; [eauto using ok_mono|].
        split; [eauto using some_validated|]. split; [exact P1|exact G].
      - destruct P as [P1 P2]. auto.
      - split; [eauto using stored_mono|]. split; [eauto using truthful_mono|]. split; [|split; [eauto using some_validated|split; [exact I|exact G]]].
        apply P. intros s E. eapply get_stored; eassumption.
      - destruct P as [P1 P2]. destruct S as ((s & Gs & Rq & Hs) & O). match goal with X : update_status _ _ _ _ = _ |- _ => rename X into H1 end. unfold update_status in H1.
        assert (X : x = Ok tt -> u = id).
        { intros ->. destruct (N.eq_dec u id) as [e|N0]; [exact e|]. rewrite (O u N0) in H1. destruct contended; discriminate. }
        split; [|split; [eauto using truthful_mono|split; [auto|split; [eauto using some_validated|split; [exact I|exact G]]]]].
        destruct contended; [injection H1 as <- <-; apply (stored_mono m l _ I1); split; eauto 6|].
        destruct (st_get u m) as [s'|] eqn:Gu; [|injection H1 as <- <-; apply (stored_mono m l _ I1); split; eauto 6].
        injection H1 as <- <-. specialize (X eq_refl). subst u. rewrite Gs in Gu. injection Gu as <-. split.
        + exists (set_status s st). split; [now rewrite st_get_insert, N.eqb_refl|]. split; [destruct s, Rq as (? & ? & ? & ?); cbn in *; repeat split; assumption|].
          intros o0 E. assert (E' : st = Complete o0) by (destruct s; exact E). right. destruct (P1 o0 E' eq_refl) as (r & V). exists h, r.
          split; [eauto using validated_mono|]. left. now rewrite E'.
        + intros u' N0. rewrite st_get_insert. destruct (N.eqb_spec u' id); [contradiction|]. auto.
      - destruct P.
      - destruct P.
      - destruct P as (P1 & P2 & P3). split; [eauto using stored_mono|]. split; [eauto using truthful_mono|]. split; [|split; [auto|split; [exact I|exact G]]].
        unfold validating. cbn [ok_prog]. auto. }
    destruct St as (A1 & A2 & A3 & A4 & A5). constructor; cbn [cs_store cs_display cs_tasks cs_notified cs_log]; auto.
    apply Forall_app. split; [eauto using tasks_mono|]. constructor; [exact A3|eauto using tasks_mono].
  - apply Forall_app in T as [T1 T2]. inversion T2 as [|? ? P T3]; subst. cbn [fst snd ok_prog] in P.
    assert (I1 : incl l (EvAnswered h r :: l)) by (intros e He; now right).
    constructor; cbn [cs_store cs_display cs_tasks cs_notified cs_log]; eauto using stored_mono, truthful_mono, some_validated.
    + apply Forall_app. split; eauto using tasks_mono.
    + split; [exact P|exact G].
  - apply Forall_app in T as [T1 T2]. inversion T2 as [|? ? P T3]; subst.
    constructor; cbn [cs_store cs_display cs_tasks cs_notified cs_log]; auto. apply Forall_app. auto.
  - assert (I1 : incl l (EvCompleted :: l)) by (intros e He; now right).
    constructor; cbn [cs_store cs_display cs_tasks cs_notified cs_log]; eauto using stored_mono, truthful_mono, tasks_mono.
    + discriminate.
    + split; [cbn; auto|exact G].
  - assert (I1 : incl l (EvInterrupted :: l)) by (intros e He; now right).
    constructor; cbn [cs_store cs_display cs_tasks cs_notified cs_log]; eauto using stored_mono, truthful_mono, tasks_mono, some_validated.
    split; [exact I|exact G].
Qed.
Lemma inv_init m : st_get id m = Some s0 -> (forall u, u <> id -> st_get u m = None) -> inv (cs_init m).
Proof.
  intros G O. constructor; cbn; auto; try discriminate. split; [|exact O]. exists s0. split; [exact G|]. split; [repeat split|]. auto.
Qed.
Lemma inv_steps x y : csteps x y -> inv x -> inv y.
Proof. induction 1; eauto using inv_step. Qed.
End Run.

Lemma run_inv up public types fresh id m dest x : cli_setup up public types fresh id = (m, Ok dest) -> csteps (cs_init m) x ->
  exists s, st_get id m = Some s /\ s_status s = SentRequestByReference /\ inv id s x.
Proof.
  intros H X. destruct (c80_setup_pf _ _ _ _ _ _ _ H) as (q & s & base & r & base' & rq & w & ep & _ & _ & _ & _ & _ & G & O & St & _).
  exists s. split; [exact G|]. split; [exact St|]. eapply inv_steps; [exact X|]. now apply inv_init.
Qed.

(** C100: the command line verifier says that it is complete only after a response posted for its own session has been
    validated. *)
Lemma c100_completed_pf
  : forall (url_parse : string -> option url) (public : url) (types : list string) (fresh id : uuid) (m : store) (dest : url)
      (x : csys) (later earlier : list cevent),
    cli_setup url_parse public types fresh id = (m, Ok dest) -> csteps (cs_init m) x ->
    cs_log x = (later ++ EvCompleted :: earlier)%list ->
    exists h r o, validated id earlier h r o.
Proof.
  intros up public types fresh id m dest x later earlier H X E. destruct (run_inv _ _ _ _ _ _ _ _ H X) as (s & _ & _ & Iv).
  exact (good_at id s _ (i_log _ _ _ Iv) _ _ _ E).
Qed.

(** C100: whatever it prints is true at that moment: that the request was fetched, that a response was posted, or the
    verdict on a response that was posted for its session. *)
Lemma c100_truthful_pf
  : forall (url_parse : string -> option url) (public : url) (types : list string) (fresh id : uuid) (m : store) (dest : url)
      (x : csys) (later earlier : list cevent) (h : creq) (d : display),
    cli_setup url_parse public types fresh id = (m, Ok dest) -> csteps (cs_init m) x ->
    cs_log x = (later ++ EvShown h d :: earlier)%list ->
    truthful id earlier d.
Proof.
  intros up public types fresh id m dest x later earlier h d H X E. destruct (run_inv _ _ _ _ _ _ _ _ H X) as (s & _ & _ & Iv).
  exact (good_at id s _ (i_log _ _ _ Iv) _ _ _ E).
Qed.

(** C100: the only request object it serves is that of its session, to who asks for that session; a response is
    answered with success only after it has been validated and its outcome recorded, and a refusal is 400 exactly if the
    body of a response was not text, otherwise 500. *)
Lemma c100_answered_pf
  : forall (url_parse : string -> option url) (public : url) (types : list string) (fresh id : uuid) (m : store) (dest : url)
      (x : csys) (later earlier : list cevent) (h : creq) (a : reply),
    cli_setup url_parse public types fresh id = (m, Ok dest) -> csteps (cs_init m) x ->
    cs_log x = (later ++ EvAnswered h a :: earlier)%list ->
    exists s, st_get id m = Some s /\ honest id (s_jwt s) earlier h a.
Proof.
  intros up public types fresh id m dest x later earlier h a H X E. destruct (run_inv _ _ _ _ _ _ _ _ H X) as (s & G & _ & Iv).
  exists s. split; [exact G|]. exact (good_at id s _ (i_log _ _ _ Iv) _ _ _ E).
Qed.

(** C100: at all times it holds its one session, with the request it was created with; an outcome stored there is that
    of a response that was posted for it. *)
Lemma c100_status_pf
  : forall (url_parse : string -> option url) (public : url) (types : list string) (fresh id : uuid) (m : store) (dest : url) (x : csys),
    cli_setup url_parse public types fresh id = (m, Ok dest) -> csteps (cs_init m) x ->
    (forall u, u <> id -> st_get u (cs_store x) = None)
    /\ exists s s', st_get id m = Some s /\ st_get id (cs_store x) = Some s' /\ same_request s s'
       /\ forall o, s_status s' = Complete o -> exists h r, validated id (cs_log x) h r o.
Proof.
  intros up public types fresh id m dest x H X. destruct (run_inv _ _ _ _ _ _ _ _ H X) as (s & G & St & Iv).
  destruct (i_store _ _ _ Iv) as ((s' & G' & R & C) & O). split; [exact O|]. exists s, s'. split; [exact G|]. split; [exact G'|]. split; [exact R|].
  intros o E. destruct (C o E) as [E'|(h & r & V & _)]; [|eauto]. rewrite St in E'. discriminate.
Qed.

Definition ends_b (e : cevent) : bool := match e with EvCompleted | EvInterrupted => true | _ => false end.
Definition arrives_b (e : cevent) : bool := match e with EvArrived _ => true | _ => false end.
Fixpoint quiet (over : bool) (L : list cevent) : Prop :=
  match L with
  | [] => over = false
  | e :: L => if ends_b e then over = true /\ quiet false L
              else (arrives_b e = true -> over = false) /\ quiet over L
  end.
Lemma quiet_step x y : cstep x y -> quiet (cs_over x) (cs_log x) -> quiet (cs_over y) (cs_log y).
Proof.
  intros H. destruct H as [m d ts n l h|m d n m' d' n' pre h p p' post o l new A|m d n pre h r post o l|m d n pre h p post o l|m d ts l|m d ts n l];
    cbn [cs_over cs_log]; intros Q; try exact Q.
  - cbn. auto.
  - inversion A; subst; cbn; try exact Q; (split; [discriminate|exact Q]).
  - cbn. split; [discriminate|exact Q].
  - cbn. auto.
  - cbn. auto.
Qed.
Lemma quiet_false L : quiet false L -> forall e, In e L -> ends_b e = false.
Proof.
  induction L as [|a L IH]; intros Q e H; [destruct H|]. cbn in Q. destruct (ends_b a) eqn:E; [destruct Q; discriminate|]. destruct Q as [_ Q].
  destruct H as [->|H]; [exact E|auto].
Qed.
Lemma quiet_after L : forall later e earlier, quiet true L -> L = (later ++ e :: earlier)%list -> ends_b e = true ->
  forall e', In e' later -> ends_b e' = false /\ arrives_b e' = false.
Proof.
  induction L as [|a L IH]; intros later e earlier Q E En e' H; [destruct later; discriminate|]. destruct later as [|b later]; [destruct H|].
  injection E as <- ->. cbn in Q. destruct (ends_b a) eqn:Ea.
  - destruct Q as [_ Q]. rewrite (quiet_false _ Q e) in En; [discriminate|]. apply in_or_app. right. now left.
  - destruct Q as [Qa Q]. destruct H as [<-|H]; [|eapply IH; eauto]. split; [exact Ea|]. destruct (arrives_b a); [discriminate (Qa eq_refl)|reflexivity].
Qed.
(** C100: it stops once, and no request arrives afterwards. *)
Lemma c100_once_pf
  : forall (m : store) (x : csys) (later earlier : list cevent) (e : cevent),
    csteps (cs_init m) x -> cs_log x = (later ++ e :: earlier)%list -> ends e ->
    cs_over x = true /\ forall e', In e' later -> ~ ends e' /\ forall h, e' <> EvArrived h.
Proof.
  intros m x later earlier e X E En. assert (Q : quiet (cs_over x) (cs_log x)).
  { remember (cs_init m) as z eqn:Ez. clear E. induction X as [x|x y z X IH Z]; [subst; reflexivity|]. eapply quiet_step; eauto. }
  assert (B : ends_b e = true) by (destruct En as [->| ->]; reflexivity).
  assert (O : cs_over x = true).
  { destruct (cs_over x); [reflexivity|]. rewrite (quiet_false _ Q e) in B; [discriminate|]. rewrite E. apply in_or_app. right. now left. }
  split; [exact O|]. rewrite O in Q. intros e' H. destruct (quiet_after _ _ _ _ Q E B e' H) as [B1 B2].
  split; [intros [->| ->]; discriminate|]. intros h ->. discriminate.
Qed.

(* ------------------------------------------------------------ one request alone *)
Inductive srun (h : creq) : store -> display -> cprog -> store -> display -> cprog -> bool -> list cevent -> Prop :=
| s_refl : forall m d p, srun h m d p m d p false []
| s_step : forall m d p m1 d1 n1 p1 new m' d' p' n' L,
    cact h (m, d, false) p (m1, d1, n1) p1 new -> srun h m1 d1 p1 m' d' p' n' L ->
    srun h m d p m' d' p' (n1 || n') (L ++ new).
Lemma act_flag h m d n p m' d' n' p' new : cact h (m, d, n) p (m', d', n') p' new ->
  exists b, n' = (n || b)%bool /\ cact h (m, d, false) p (m', d', b) p' new.
Proof.
  intros A. inversion A; subst; try (exists false; split; [now destruct n'|]; econstructor; eauto).
  exists true. split; [now destruct n|]. constructor.
Qed.
Lemma srun_snoc h m d p m1 d1 p1 n1 L : srun h m d p m1 d1 p1 n1 L -> forall m2 d2 b p2 new,
  cact h (m1, d1, false) p1 (m2, d2, b) p2 new -> srun h m d p m2 d2 p2 (n1 || b) (new ++ L).
Proof.
  induction 1 as [m d p|m d p m1 d1 n1 p1 new1 m' d' p' n' L A R IH]; intros m2 d2 b p2 new A2.
  - rewrite app_nil_r. assert (E : (false || b)%bool = (b || false)%bool) by now destruct b. rewrite E. change new with ([] ++ new)%list.
    eapply s_step; [exact A2|]. constructor.
  - rewrite <- orb_assoc, app_assoc. eapply s_step; [exact A|]. now apply IH.
Qed.
Lemma arrivals_app a b : arrivals (a ++ b) = (arrivals b ++ arrivals a)%list.
Proof. unfold arrivals. now rewrite rev_app_distr, flat_map_app. Qed.
Lemma shown_app a b : shown (a ++ b) = (shown b ++ shown a)%list.
Proof. unfold shown. now rewrite rev_app_distr, flat_map_app. Qed.
Lemma answers_app a b : answers (a ++ b) = (answers b ++ answers a)%list.
Proof. unfold answers. now rewrite rev_app_distr, flat_map_app. Qed.
Lemma act_quiet h st p st' p' new : cact h st p st' p' new -> arrivals new = [] /\ answers new = [].
Proof. intros A. inversion A; subst; auto. Qed.

Definition lone (m : store) (x : csys) : Prop :=
  (arrivals (cs_log x) = [] -> cs_tasks x = [] /\ cs_store x = m /\ cs_display x = DWaiting /\ shown (cs_log x) = [] /\ answers (cs_log x) = [])
  /\ forall h, arrivals (cs_log x) = [h] -> exists p b L,
       srun h m DWaiting (chandler h) (cs_store x) (cs_display x) p b L /\ shown (cs_log x) = shown L
       /\ (b = true -> cs_notified x = true \/ In EvCompleted (cs_log x))
       /\ ((cs_tasks x = [(h, p)] /\ answers (cs_log x) = [])
           \/ cs_tasks x = [] /\ (answers (cs_log x) = [] \/ exists a, p = CDone a /\ answers (cs_log x) = [(h, a)])).
Lemma one_task {A} (pre : list A) t post u : (pre ++ t :: post)%list = [u] -> pre = [] /\ t = u /\ post = [].
Proof. destruct pre as [|a [|b pre]]; intros E; try discriminate. injection E as -> ->. auto. Qed.
Lemma no_task {A} (pre : list A) t post : (pre ++ t :: post)%list <> [].
Proof. destruct pre; discriminate. Qed.
Lemma lone_step m x y : lone m x -> cstep x y -> lone m y.
Proof.
  intros [L0 L1] H.
  destruct H as [m1 d ts n l h|m1 d n m' d' n' pre h p p' post o l new A|m1 d n pre h r post o l|m1 d n pre h p post o l|m1 d ts l|m1 d ts n l];
    unfold lone; cbn [cs_store cs_display cs_tasks cs_notified cs_log] in *.
  - change (EvArrived h :: l) with ([EvArrived h] ++ l)%list. rewrite arrivals_app, shown_app, answers_app.
    change (arrivals [EvArrived h]) with [h]. change (shown [EvArrived h]) with (@nil display). change (answers [EvArrived h]) with (@nil (creq * reply)).
    rewrite !app_nil_r. split; [intros E; destruct (arrivals l); discriminate|]. intros h' E. destruct (arrivals l) as [|? [|]]; try discriminate.
    injection E as <-. destruct (L0 eq_refl) as (-> & -> & -> & Sh & An). exists (chandler h), false, []. split; [constructor|]. split; [exact Sh|].
    split; [discriminate|]. left. auto.
  - destruct (act_quiet _ _ _ _ _ _ A) as [A1 A2]. rewrite arrivals_app, shown_app, answers_app, A1, A2, !app_nil_r. split.
    + intros E. destruct (L0 E) as (E1 & _). destruct (no_task _ _ _ E1).
    + intros h' E. destruct (L1 h' E) as (q & b & L & R & Sh & Nt & T). destruct T as [[T An]|[T _]]; [|destruct (no_task _ _ _ T)].
      apply one_task in T as (-> & T & ->). injection T as -> ->. destruct (act_flag _ _ _ _ _ _ _ _ _ _ A) as (b' & -> & A').
      exists p', (b || b')%bool, (new ++ L)%list. split; [eapply srun_snoc; eassumption|]. split; [now rewrite shown_app, Sh|]. split.
      * intros B. destruct b; [destruct (Nt eq_refl) as [-> |Hc]; [now left|]|cbn in B; subst; left; apply orb_true_r]. right. apply in_or_app. now right.
      * left. auto.
  - change (EvAnswered h r :: l) with ([EvAnswered h r] ++ l)%list. rewrite arrivals_app, shown_app, answers_app.
    change (arrivals [EvAnswered h r]) with (@nil creq). change (shown [EvAnswered h r]) with (@nil display).
    change (answers [EvAnswered h r]) with [(h, r)]. rewrite !app_nil_r. split.
    + intros E. destruct (L0 E) as (E1 & _). destruct (no_task _ _ _ E1).
    + intros h' E. destruct (L1 h' E) as (q & b & L & R & Sh & Nt & T). destruct T as [[T An]|[T _]]; [|destruct (no_task _ _ _ T)].
      apply one_task in T as (-> & T & ->). injection T as -> <-. exists (CDone r), b, L. split; [exact R|]. split; [exact Sh|]. split.
      * intros B. destruct (Nt B) as [?|?]; [now left|right; now right].
      * right. split; [reflexivity|]. right. exists r. rewrite An. auto.
  - split.
    + intros E. destruct (L0 E) as (E1 & _). destruct (no_task _ _ _ E1).
    + intros h' E. destruct (L1 h' E) as (q & b & L & R & Sh & Nt & T). destruct T as [[T An]|[T _]]; [|destruct (no_task _ _ _ T)].
      apply one_task in T as (-> & T & ->). injection T as -> <-. exists p, b, L. split; [exact R|]. split; [exact Sh|]. split; [exact Nt|]. right. auto.
  - change (EvCompleted :: l) with ([EvCompleted] ++ l)%list. rewrite arrivals_app, shown_app, answers_app.
    change (arrivals [EvCompleted]) with (@nil creq). change (shown [EvCompleted]) with (@nil display).
    change (answers [EvCompleted]) with (@nil (creq * reply)). rewrite !app_nil_r. split; [exact L0|]. intros h E.
    destruct (L1 h E) as (q & b & L & R & Sh & Nt & T). exists q, b, L. split; [exact R|]. split; [exact Sh|]. split; [intros _; right; now left|exact T].
  - change (EvInterrupted :: l) with ([EvInterrupted] ++ l)%list. rewrite arrivals_app, shown_app, answers_app.
    change (arrivals [EvInterrupted]) with (@nil creq). change (shown [EvInterrupted]) with (@nil display).
    change (answers [EvInterrupted]) with (@nil (creq * reply)). rewrite !app_nil_r. split; [exact L0|]. intros h E.
    destruct (L1 h E) as (q & b & L & R & Sh & Nt & T). exists q, b, L. split; [exact R|]. split; [exact Sh|]. split; [|exact T].
    intros B. destruct (Nt B) as [?|?]; [now left|right; now right].
Qed.
Lemma lone_init m : lone m (cs_init m).
Proof. split; [cbn; auto|]. cbn. discriminate. Qed.

Ltac next_act R :=
  inversion R; subst; clear R;
  match goal with A : cact _ _ _ _ _ _ |- _ => inversion A; subst; clear A end;
  match goal with X : srun _ _ _ _ _ _ _ _ _ |- _ => rename X into R end.
Lemma srun_done h m d a m' d' p b L : srun h m d (CDone a) m' d' p b L -> m' = m /\ p = CDone a /\ b = false /\ L = [].
Proof. intros R. inversion R as [|? ? ? ? ? ? ? ? ? ? ? ? ? A ?]; subst; [auto|inversion A]. Qed.

(** C100: when just one request arrives and is answered as a response, it has printed exactly that it is processing a
    response and the verdict on it, stored that verdict for its session, and given the notification that ends the
    program. *)
Lemma c100_alone_pf
  : forall (m : store) (x : csys) (h : creq) (code : N) (body : json),
    csteps (cs_init m) x -> arrivals (cs_log x) = [h] -> answers (cs_log x) = [(h, RJson code body)] ->
    exists id r o d s s', posts_response id h r /\ outcome_for r o /\ reports o d /\ shown (cs_log x) = [DReceived; d]
      /\ st_get id m = Some s /\ st_get id (cs_store x) = Some s' /\ same_request s s' /\ s_status s' = Complete o
      /\ (cs_notified x = true \/ In EvCompleted (cs_log x)).
Proof.
  intros m x h code body X Ar An. assert (Lo : lone m x).
  { remember (cs_init m) as z eqn:Ez. clear Ar An. induction X as [x|x y z X IH Z]; [subst; apply lone_init|]. eapply lone_step; eauto. }
  destruct Lo as [_ Lo]. destruct (Lo h Ar) as (p & b & L & R & Sh & Nt & T).
  assert (P : p = CDone (RJson code body)).
  { destruct T as [[_ E]|[_ [E|(a & -> & E)]]]; [congruence|congruence|]. rewrite E in An. injection An as ->. reflexivity. }
  subst p. clear Lo T. destruct h as [sid|sid bd]; cbn [chandler] in R.
  - exfalso. destruct (uuid_of_string sid) as [u|]; [|apply srun_done in R as (_ & E & _); discriminate]. unfold retrieve_code in R. cbn [within] in R.
    next_act R. match type of R with context [get_session ?c ?v ?n] => destruct (get_session c v n) as [s|e] end; [|apply srun_done in R as (_ & E & _); discriminate].
    destruct (status_lt (s_status s) SentRequest); cbn [within] in R.
    + next_act R. match type of R with context [rmap _ ?y] => destruct y as [[]|e] end; cbn [rmap] in R; [|apply srun_done in R as (_ & E & _); discriminate].
      next_act R. next_act R. next_act R. apply srun_done in R as (_ & E & _); discriminate.
    + next_act R. next_act R. next_act R. apply srun_done in R as (_ & E & _); discriminate.
  - destruct (utf8_valid bd) eqn:V; [|apply srun_done in R as (_ & E & _); discriminate].
    destruct (uuid_of_string sid) as [u|] eqn:U; [|apply srun_done in R as (_ & E & _); discriminate].
    next_act R. next_act R. next_act R. destruct (from_form bd) as [r|e] eqn:F; [|apply srun_done in R as (_ & E & _); discriminate].
    unfold verify_code in R. cbn [within] in R. next_act R. match type of R with context [get_session ?c ?v ?n] => destruct (get_session c v n) as [s|e] eqn:Gs end;
      [|apply srun_done in R as (_ & E & _); discriminate]. cbn [within] in R.
    next_act R. unfold validating in R. next_act R. next_act R. next_act R. next_act R. cbn [within] in R. next_act R.
    match goal with Hu : update_status _ _ _ _ = _ |- _ => rename Hu into Up end.
    apply srun_done in R as (Em & E & -> & ->).
    match type of E with _ = CDone (response_reply ?y) => destruct y as [[]|e]; [|discriminate] end. clear E.
    unfold get_session in Gs. match type of Gs with (if ?c then _ else _) = _ => destruct c; [discriminate|] end. match type of Gs with context [st_get u ?n] => destruct (st_get u n) as [s1|] eqn:G end; [|discriminate]. injection Gs as ->.
    unfold update_status in Up. match type of Up with (if ?c then _ else _) = _ => destruct c; [discriminate|] end. rewrite G in Up. injection Up as Up.
    exists u, r, (cli_validator s r), (shown_for (cli_validator s r)), s, (set_status s (Complete (cli_validator s r))).
    split; [exists sid, bd; auto|]. split.
    { destruct r as [t|j]; cbn [cli_validator outcome_for]; [|eauto]. eexists. split; [reflexivity|]. apply members_of; [reflexivity|].
      cbn [In]. unfold vp_len, jstrs. tauto. }
    split; [destruct (cli_validator s r); reflexivity|]. split; [rewrite Sh; reflexivity|]. split; [exact G|].
    rewrite Em, <- Up, st_get_insert, N.eqb_refl. split; [reflexivity|]. split; [destruct s; repeat split|]. split; [now destruct s|]. now apply Nt.
Qed.

(* ------------------------------------------------------------ executions *)
Lemma act_first x m d n o l h p ts m' d' n' p' new : csteps x (mk_csys m d ((h, p) :: ts) n o l) ->
  cact h (m, d, n) p (m', d', n') p' new -> csteps x (mk_csys m' d' ((h, p') :: ts) n' o (new ++ l)).
Proof. intros X A. eapply csteps_snoc; [exact X|]. exact (cs_act m d n m' d' n' [] h p p' ts o l new A). Qed.
Lemma act_second x m d n o l t h p ts m' d' n' p' new : csteps x (mk_csys m d (t :: (h, p) :: ts) n o l) ->
  cact h (m, d, n) p (m', d', n') p' new -> csteps x (mk_csys m' d' (t :: (h, p') :: ts) n' o (new ++ l)).
Proof. intros X A. eapply csteps_snoc; [exact X|]. exact (cs_act m d n m' d' n' [t] h p p' ts o l new A). Qed.
Lemma arrive x m d ts n l h : csteps x (mk_csys m d ts n false l) -> csteps x (mk_csys m d ((h, chandler h) :: ts) n false (EvArrived h :: l)).
Proof. intros X. eapply csteps_snoc; [exact X|]. constructor. Qed.
Lemma answer_first x m d n o l h a ts : csteps x (mk_csys m d ((h, CDone a) :: ts) n o l) -> csteps x (mk_csys m d ts n o (EvAnswered h a :: l)).
Proof. intros X. eapply csteps_snoc; [exact X|]. exact (cs_answer m d n [] h a ts o l). Qed.
Lemma complete x m d ts l : csteps x (mk_csys m d ts true false l) -> csteps x (mk_csys m d ts false true (EvCompleted :: l)).
Proof. intros X. eapply csteps_snoc; [exact X|]. constructor. Qed.
Lemma response_handler sid body u r : utf8_valid body = true -> uuid_of_string sid = Some u -> from_form body = Ok r ->
  chandler (CResponse sid body) = CSet DReceived (CRead (within (verify_code u r) (fun x => CDone (response_reply x)))).
Proof. intros V U F. unfold chandler. now rewrite V, U, F. Qed.

(** Up to where the verdict has been set. *)
Lemma until_set m d ts n l sid body u r s : utf8_valid body = true -> uuid_of_string sid = Some u -> from_form body = Ok r -> st_get u m = Some s ->
  let h := CResponse sid body in
  csteps (mk_csys m d ts n false l)
    (mk_csys m (shown_for (cli_validator s r))
       ((h, CRead (CNotify (CUpdate u (Complete (cli_validator s r)) (fun x => CDone (response_reply x))))) :: ts) n false
       (EvDoes h (EvValidate s r (cli_validator s r)) :: EvDoes h (EvGet u (Ok s)) :: EvShown h DReceived :: EvArrived h :: l)).
Proof.
  intros V U F G h. subst h. set (h := CResponse sid body).
  assert (X : csteps (mk_csys m d ts n false l) (mk_csys m d ts n false l)) by constructor.
  apply (arrive _ _ _ _ _ _ h) in X. unfold h in X at 2. rewrite (response_handler _ _ _ _ V U F) in X.
  eapply act_first in X; [|apply c_set]. eapply act_first in X; [|apply c_read]. eapply act_first in X; [|apply c_show].
  unfold verify_code in X. cbn [within] in X. eapply act_first in X; [|apply (c_get _ _ _ _ _ _ false)].
  unfold get_session in X. rewrite G in X. cbn [ok_or within] in X. eapply act_first in X; [|apply c_validate]. unfold validating in X.
  eapply act_first in X; [|apply c_set]. exact X.
Qed.

(** C100: a response posted for a session that exists can be handled to that end, without another request and without
    anything else happening. *)
Lemma c100_possible_pf
  : forall (m : store) (h : creq) (id : uuid) (r : auth_response) (s : session),
    posts_response id h r -> st_get id m = Some s ->
    exists x, csteps (cs_init m) x /\ arrivals (cs_log x) = [h] /\ answers (cs_log x) = [(h, RJson 200 (JObj []))]
      /\ In EvCompleted (cs_log x).
Proof.
  intros m h id r s (sid & body & -> & V & U & F) G.
  pose proof (until_set m DWaiting [] false [] sid body id r s V U F G) as X. cbn beta zeta in X. fold (cs_init m) in X.
  eapply act_first in X; [|apply c_read]. eapply act_first in X; [|apply c_show]. eapply act_first in X; [|apply c_notify].
  eapply act_first in X; [|apply (c_update _ _ _ _ _ _ _ false); unfold update_status; rewrite G; reflexivity].
  cbn beta in X. cbn [response_reply] in X. apply answer_first in X. apply complete in X. eexists. split; [exact X|].
  split; [reflexivity|]. split; [reflexivity|]. now left.
Qed.

Lemma toy_stored : exists s, st_get 7%N (fst cli_toy) = Some s /\ s_status s = SentRequestByReference.
Proof. vm_compute. eexists. split; reflexivity. Qed.
Lemma toy_starts : exists dest, cli_setup simple_parse (toy_url "https://v.example/") ["ldp_vc"] 1%N 7%N = (fst cli_toy, Ok dest).
Proof. vm_compute. eexists. reflexivity. Qed.
Definition toy_post : creq := CResponse (uuid_str 7%N) "vp_token={}".
Definition toy_response : auth_response := Unencoded (mk_unencoded [] None).
Lemma toy_posts : posts_response 7%N toy_post toy_response.
Proof. exists (uuid_str 7%N), "vp_token={}". vm_compute. auto. Qed.
Example c100_possible_ex : exists m r s, st_get 7%N m = Some s /\ posts_response 7%N toy_post r.
Proof. destruct toy_stored as (s & G & _). exists (fst cli_toy), toy_response, s. split; [exact G|apply toy_posts]. Qed.

(** C100, refuted: that the verdict is printed before the program ends.  The display is one variable: another request
    can overwrite it between the verdict being set and being printed. *)
Lemma c100_lost_refuted_pf
  : exists (url_parse : string -> option url) (public : url) (types : list string) (fresh id : uuid) (m : store) (dest : url)
      (x : csys) (s : session) (info : json),
    cli_setup url_parse public types fresh id = (m, Ok dest) /\ csteps (cs_init m) x /\ In EvCompleted (cs_log x)
    /\ st_get id (cs_store x) = Some s /\ s_status s = Complete (OSuccess info) /\ shown (cs_log x) = [DReceived; DReceived].
Proof.
  destruct toy_starts as (dest & St). destruct toy_stored as (s & G & _). destruct toy_posts as (sid & body & E & V & U & F). generalize dependent (fst cli_toy).
  intros m St G. pose proof (until_set m DWaiting [] false [] sid body 7%N _ s V U F G) as X. cbn beta zeta in X. fold (cs_init m) in X.
  apply (arrive _ _ _ _ _ _ (CResponse (uuid_str 8%N) "")) in X.
  assert (E8 : chandler (CResponse (uuid_str 8%N) "") = CSet DReceived (CRead (match from_form "" with Err _ => CDone (RError 500) | Ok r =>
     within (verify_code 8%N r) (fun x => CDone (response_reply x)) end))) by reflexivity. rewrite E8 in X.
  eapply act_first in X; [|apply c_set]. eapply act_second in X; [|apply c_read]. eapply act_second in X; [|apply c_show]. eapply act_second in X; [|apply c_notify].
  eapply act_second in X; [|apply (c_update _ _ _ _ _ _ _ false); unfold update_status; rewrite G; reflexivity]. apply complete in X.
  exists simple_parse, (toy_url "https://v.example/"), ["ldp_vc"], 1%N, 7%N, m, dest. eexists. exists (set_status s (Complete (cli_validator s toy_response))). eexists.
  split; [exact St|]. split; [exact X|]. split; [now left|]. cbn [cs_store]. split; [now rewrite st_get_insert, N.eqb_refl|]. split; [destruct s; reflexivity|].
  reflexivity.
Qed.

(** C100, refuted: that a verdict that was printed and ended the program is recorded and acknowledged to the wallet.
    The outcome is stored after the validator has printed it, and storing it fails while another request uses the
    store. *)
Lemma c100_unstored_refuted_pf
  : exists (url_parse : string -> option url) (public : url) (types : list string) (fresh id : uuid) (m : store) (dest : url)
      (x : csys) (h : creq) (info : json) (s : session),
    cli_setup url_parse public types fresh id = (m, Ok dest) /\ csteps (cs_init m) x /\ In EvCompleted (cs_log x)
    /\ shown (cs_log x) = [DReceived; DSuccess info] /\ answers (cs_log x) = [(h, RError 500)]
    /\ st_get id (cs_store x) = Some s /\ s_status s = SentRequestByReference.
Proof.
  destruct toy_starts as (dest & St). destruct toy_stored as (s & G & Ss). destruct toy_posts as (sid & body & E & V & U & F). generalize dependent (fst cli_toy).
  intros m St G. assert (X : csteps (cs_init m) (cs_init m)) by constructor. unfold cs_init in X at 2.
  apply (arrive _ _ _ _ _ _ (CFetch sid)) in X. assert (T : csteps (cs_init m) (cs_init m)) by constructor.
  match type of X with csteps _ (mk_csys _ _ ?ts _ _ ?l) => pose proof (until_set m DWaiting ts false l sid body 7%N _ s V U F G) as Y end.
  cbn beta zeta in Y.
  assert (Z : forall a b c, csteps a b -> csteps b c -> csteps a c).
  { intros a b c A B. induction B; [exact A|]. eapply csteps_snoc; [apply IHB; exact A|eassumption]. }
  pose proof (Z _ _ _ X Y) as W. clear X Y Z T.
  eapply act_first in W; [|apply c_read]. eapply act_first in W; [|apply c_show]. eapply act_first in W; [|apply c_notify].
  eapply act_first in W; [|apply (c_update _ _ _ _ _ _ _ true); reflexivity].
  cbn beta in W. cbn [response_reply] in W. apply answer_first in W. unfold chandler in W. rewrite U in W. unfold retrieve_code in W. cbn [within] in W.
  eapply act_first in W; [|apply (c_get _ _ _ _ _ _ false)]. apply complete in W.
  exists simple_parse, (toy_url "https://v.example/"), ["ldp_vc"], 1%N, 7%N, m, dest. eexists. eexists. eexists. exists s.
  split; [exact St|]. split; [exact W|]. split; [now left|]. split; [reflexivity|]. split; [reflexivity|]. split; [exact G|exact Ss].
Qed.

(** C100, refuted: that it says that it is processing a response only when one was posted for its session: any
    identifier will do, and the message stays. *)
Lemma c100_stranger_refuted_pf
  : exists (url_parse : string -> option url) (public : url) (types : list string) (fresh id : uuid) (m : store) (dest : url)
      (x : csys) (sid body : string),
    cli_setup url_parse public types fresh id = (m, Ok dest) /\ csteps (cs_init m) x
    /\ arrivals (cs_log x) = [CResponse sid body] /\ uuid_of_string sid <> Some id
    /\ shown (cs_log x) = [DReceived] /\ cs_display x = DReceived /\ answers (cs_log x) = [(CResponse sid body, RError 500)].
Proof.
  destruct toy_starts as (dest & St). generalize dependent (fst cli_toy). intros m St.
  assert (X : csteps (cs_init m) (cs_init m)) by constructor. unfold cs_init in X at 2.
  apply (arrive _ _ _ _ _ _ (CResponse (uuid_str 8%N) "")) in X.
  assert (E8 : chandler (CResponse (uuid_str 8%N) "") = CSet DReceived (CRead (CDone (RError 500)))) by (vm_compute; reflexivity). rewrite E8 in X.
  eapply act_first in X; [|apply c_set]. eapply act_first in X; [|apply c_read]. eapply act_first in X; [|apply c_show]. apply answer_first in X.
  exists simple_parse, (toy_url "https://v.example/"), ["ldp_vc"], 1%N, 7%N, m, dest. eexists. exists (uuid_str 8%N), "".
  split; [exact St|]. split; [exact X|]. split; [reflexivity|]. split; [vm_compute; discriminate|]. repeat split.
Qed.

(** An execution that completes. *)
Lemma toy_run : exists dest x, cli_setup simple_parse (toy_url "https://v.example/") ["ldp_vc"] 1%N 7%N = (fst cli_toy, Ok dest)
  /\ csteps (cs_init (fst cli_toy)) x /\ arrivals (cs_log x) = [toy_post] /\ answers (cs_log x) = [(toy_post, RJson 200 (JObj []))]
  /\ In EvCompleted (cs_log x).
Proof.
  destruct toy_starts as (dest & St). destruct toy_stored as (s & G & _).
  destruct (c100_possible_pf _ _ _ _ _ toy_posts G) as (x & X & A1 & A2 & Ic). exists dest, x. auto.
Qed.
Example c100_alone_ex : exists x, csteps (cs_init (fst cli_toy)) x /\ arrivals (cs_log x) = [toy_post] /\ answers (cs_log x) = [(toy_post, RJson 200 (JObj []))].
Proof. destruct toy_run as (dest & x & _ & X & A1 & A2 & _). eauto. Qed.
Example c100_completed_ex : exists dest x later earlier, cli_setup simple_parse (toy_url "https://v.example/") ["ldp_vc"] 1%N 7%N = (fst cli_toy, Ok dest)
  /\ csteps (cs_init (fst cli_toy)) x /\ cs_log x = (later ++ EvCompleted :: earlier)%list.
Proof. destruct toy_run as (dest & x & St & X & _ & _ & Ic). apply in_split in Ic as (later & earlier & El). exists dest, x, later, earlier. auto. Qed.
Example c100_status_ex : exists dest x, cli_setup simple_parse (toy_url "https://v.example/") ["ldp_vc"] 1%N 7%N = (fst cli_toy, Ok dest)
  /\ csteps (cs_init (fst cli_toy)) x /\ exists s o, st_get 7%N (cs_store x) = Some s /\ s_status s = Complete o.
Proof.
  destruct toy_run as (dest & x & St & X & A1 & A2 & _). exists dest, x. split; [exact St|]. split; [exact X|].
  destruct (c100_alone_pf _ _ _ _ _ X A1 A2) as (id & r & o & d & s & s' & (sid & body & E & _ & U & _) & _ & _ & _ & _ & G & _ & C & _).
  unfold toy_post in E. injection E as <- <-. assert (E7 : uuid_of_string (uuid_str 7%N) = Some 7%N) by (vm_compute; reflexivity). rewrite E7 in U. injection U as <-. eauto.
Qed.
Example c100_once_ex : exists x later earlier e, csteps (cs_init (fst cli_toy)) x /\ cs_log x = (later ++ e :: earlier)%list /\ ends e.
Proof.
  destruct toy_run as (dest & x & _ & X & _ & _ & Ic). apply in_split in Ic as (later & earlier & El). exists x, later, earlier, EvCompleted.
  split; [exact X|]. split; [exact El|now left].
Qed.
Lemma in_answers h a L : In (h, a) (answers L) -> In (EvAnswered h a) L.
Proof.
  unfold answers. intros H. apply in_flat_map in H as (e & He & H). apply in_rev in He. destruct e; cbn in H; try contradiction; destruct H as [E|[]]. injection E as -> ->. exact He.
Qed.
Lemma in_shown d L : In d (shown L) -> exists h, In (EvShown h d) L.
Proof.
  unfold shown. intros H. apply in_flat_map in H as (e & He & H). apply in_rev in He. destruct e; cbn in H; try contradiction; destruct H as [E|[]]. subst. eauto.
Qed.
Example c100_answered_ex : exists dest x later earlier, cli_setup simple_parse (toy_url "https://v.example/") ["ldp_vc"] 1%N 7%N = (fst cli_toy, Ok dest)
  /\ csteps (cs_init (fst cli_toy)) x /\ cs_log x = (later ++ EvAnswered toy_post (RJson 200 (JObj [])) :: earlier)%list.
Proof.
  destruct toy_run as (dest & x & St & X & _ & A2 & _). assert (H : In (toy_post, RJson 200 (JObj [])) (answers (cs_log x))) by (rewrite A2; now left).
  apply in_answers, in_split in H as (later & earlier & El). exists dest, x, later, earlier. auto.
Qed.
Example c100_truthful_ex : exists dest x later earlier h info, cli_setup simple_parse (toy_url "https://v.example/") ["ldp_vc"] 1%N 7%N = (fst cli_toy, Ok dest)
  /\ csteps (cs_init (fst cli_toy)) x /\ cs_log x = (later ++ EvShown h (DSuccess info) :: earlier)%list.
Proof.
  destruct toy_run as (dest & x & St & X & A1 & A2 & _).
  destruct (c100_alone_pf _ _ _ _ _ X A1 A2) as (id & r & o & d & s & s' & (sid & body & E & _ & _ & F) & Of & Rp & Sh & _).
  unfold toy_post in E. injection E as <- <-. assert (Fr : from_form "vp_token={}" = Ok toy_response) by (vm_compute; reflexivity).
  rewrite Fr in F. injection F as <-. destruct Of as (info & -> & _). cbn in Rp. subst d.
  assert (H : In (DSuccess info) (shown (cs_log x))) by (rewrite Sh; right; now left). apply in_shown in H as (h & H).
  apply in_split in H as (later & earlier & El). exists dest, x, later, earlier, h, info. auto.
Qed.
