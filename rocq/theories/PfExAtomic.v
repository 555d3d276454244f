From Coq Require Import Lia Sorted Permutation.
From Verif Require Import Base BaseFacts Utf8 Json JsonFacts JsonText Serde Url UrlEncoded Object Formats Params Metadata Dcql
  Request Response Session X509 Client Builder Server ExVerifier.
From Verif Require Import Spec SpecObject SpecRequest SpecBuilder SpecSession SpecServer SpecVerifierEx SpecAtomic SpecExHistory SpecExAtomic
  StoreFacts PfBuilder UuidFacts PfSession PfServer PfHistory PfFresh PfExServer PfExHistory PfAtomic.

(** Running a handler is running the call it follows. *)
Lemma run_follows v f p q : follows f p q -> forall m m' j x, run false v q m = (m', j, x) -> run false v p m = (m', j, Ok (f x)).
Proof.
  induction 1 as [r|s k k' F IH|u st k k' F IH|u k k' F IH|u k k' F IH|s r k k' F IH]; intros m m' j x; cbn [run].
  - intros E. injection E as <- <- <-. reflexivity.
  - destruct (initiate false s m). apply IH.
  - destruct (update_status false u st m). apply IH.
  - apply IH.
  - destruct (remove_session false u m). apply IH.
  - destruct (run false v (k' (v s r)) m) as [[m1 j1] x1] eqn:E. intros X. injection X as <- <- <-. now rewrite (IH _ _ _ _ _ E).
Qed.
Lemma follows_done f p x : follows f p (Done x) -> p = Done (Ok (f x)).
Proof. intros H. inversion H. reflexivity. Qed.
Lemma done_follows f r q : follows f (Done (Ok r)) q -> exists x, q = Done x /\ r = f x.
Proof. intros H. inversion H. eauto. Qed.
Lemma pass_effect a h c e : call_of a h = Some c -> (forall x, e <> EvReturn x) -> comes_to_pass (h, HDoes e) = takes_effect (c, e).
Proof.
  intros C N. destruct h as [n f id|sid|sid body|sid]; cbn [call_of] in C.
  - injection C as <-. destruct e as [s x|u st x|u [s|er]|u x|s r o|x]; reflexivity.
  - destruct (uuid_of_string sid); [|discriminate]. injection C as <-. destruct e as [s x|v st x|v [s|er]|v x|s r o|x]; reflexivity.
  - destruct (utf8_valid body); [|discriminate]. destruct (uuid_of_string sid); [|discriminate]. destruct (from_form body); [|discriminate].
    injection C as <-. destruct e as [s x|v st x|v [s|er]|v x|s r o|x]; reflexivity.
  - destruct (uuid_of_string sid); [|discriminate]. injection C as <-. destruct e as [s x|v st x|v [s|er]|v x|s r o|x]; reflexivity.
Qed.
Lemma finish_error a h e : exists n, finish a h (Err e) = RError n.
Proof. destruct h; cbn; eauto. Qed.

Definition hgot (l : list (hreq * hevent)) (u : uuid) (s : session) : Prop := exists h, In (h, HDoes (EvGet u (Ok s))) l.
Definition hruled (l : list (hreq * hevent)) (s : session) (r : auth_response) (o : outcome) : Prop := exists h, In (h, HDoes (EvValidate s r o)) l.
Lemma apart_cons x l : sessions_apart (x :: l) -> no_late_fetch (x :: l) -> sessions_apart l /\ no_late_fetch l.
Proof.
  intros I L. split.
  - intros u s s' [U (h & H)] [U' (h' & H')]. apply (I u); (split; [assumption|eexists; right; eassumption]).
  - intros n h u o s E. apply (L (x :: n) h u o s). now rewrite E.
Qed.

Section S.
Variable up : string -> option url.
Variable op : string -> res string.
Variable a : adapter.
Notation v := (app_validator op).

Lemma blind : forall s s' r, same_request s s' -> v s r = v s' r.
Proof. intros s s' r _. reflexivity. Qed.
(** What the states of the server have in common. *)
Lemma state_facts x : hreachable up op a x ->
  ssorted (hs_store x) /\ (forall u, st_get u (hs_store x) = hafter (hs_log x) u)
  /\ (forall s r o, hruled (hs_log x) s r o -> o = v s r)
  /\ (sessions_apart (hs_log x) -> forall u s s', hgot (hs_log x) u s -> st_get u (hs_store x) = Some s' -> same_request s s').
Proof.
  intros R. destruct (simulated _ _ _ _ R) as (y & Ry & E & _ & L). pose proof (inv_reachable _ _ Ry) as Inv. pose proof (proj1 (c88_linear_pf _ _ Ry)) as Af.
  split; [rewrite <- E; exact (inv_sorted _ Inv)|]. split; [intros u; rewrite <- E, Af; symmetry; exact (logs_after op a _ _ L u)|]. split.
  - intros s r o (h & H). clear - L H. induction L as [|h' hl l C L IH|h' c' e' hl l C V N' L IH|h' c' z hl l C L IH].
    + destruct H.
    + destruct H as [X|H]; [discriminate X|auto].
    + destruct H as [X|H]; [injection X as _ ->; eapply V; reflexivity|auto].
    + destruct H as [X|H]; [discriminate X|auto].
  - intros I u s s' (h & H) G. rewrite <- E in G.
    assert (Hy : exists c, In (c, EvGet u (Ok s)) (sy_log y)).
    { clear - L H. induction L as [|h' hl l C L IH|h' c' e' hl l C V N' L IH|h' c' z hl l C L IH].
      - destruct H.
      - destruct H as [X|H]; [discriminate X|auto].
      - destruct H as [X|H]; [injection X as _ ->; exists c'; now left|]. destruct (IH H) as (c & Hc). exists c. now right.
      - destruct H as [X|H]; [discriminate X|]. destruct (IH H) as (c & Hc). exists c. now right. }
    destruct Hy as (c & Hy). destruct (inv_got _ Inv _ _ _ Hy) as (s1 & C1 & Q1). destruct (inv_stored _ Inv _ _ G) as (s2 & C2 & Q2).
    assert (K : forall t, creates u t (sy_log y) -> hcreates u t (hs_log x)).
    { intros t [U (c0 & H0)]. split; [exact U|]. destruct (log_does _ _ _ _ _ _ L H0) as (h0 & H1 & _); [discriminate|]. now exists h0. }
    apply (same_trans _ s1); [now apply same_sym|]. apply (same_trans _ s2); [|exact Q2]. exact (I u _ _ (K _ C1) (K _ C2)).
Qed.

(** What is left of a request: [E]: answers due to the call it makes. *)
Definition hstage (l : list (hreq * hevent)) (E : hreq -> res answer -> Prop) (h : hreq) (p : prog reply) : Prop :=
  call_of a h = None /\ p = Done (Ok (RError 400))
  \/ exists c q, call_of a h = Some c /\ follows (finish a h) p q /\ stage up (hgot l) (hruled l) (fun _ => E h) c q.
Lemma hstage_mono l l' (E E' : hreq -> res answer -> Prop) h p : (forall z, In z l -> In z l') -> (forall x, E h x -> E' h x) -> hstage l E h p -> hstage l' E' h p.
Proof.
  intros Hl He [H|(c & q & C & F & S)]; [now left|]. right. exists c, q. split; [exact C|]. split; [exact F|].
  eapply stage_mono; [| | |exact S]; [intros u s (h' & H); exists h'; auto|intros s r o (h' & H); exists h'; auto|auto].
Qed.
Lemma hstage_start l E h : hstage l E h (handler up a h).
Proof.
  destruct (call_of a h) as [c|] eqn:C; [|left; split; [exact C|now apply handler_refuses]].
  right. exists c, (code up c). split; [exact C|]. split; [eapply handler_follows; exact C|constructor].
Qed.
Lemma hact m m' pre h p p' post l e (E E' : hreq -> res answer -> Prop) :
  hreachable up op a (mk_hsys m (pre ++ (h, p) :: post) l) ->
  sessions_apart ((h, HDoes e) :: l) -> no_late_fetch ((h, HDoes e) :: l) ->
  (lock_held e = true -> E' h (Err "try_lock")) ->
  (forall j x, comes_to_pass (h, HDoes e) = true -> run false v (handler up a h) m = (m', j, Ok (finish a h x)) -> E' h x) ->
  act m p m' p' e -> (forall s r o, e = EvValidate s r o -> o = v s r) -> hstage l E h p ->
  (if comes_to_pass (h, HDoes e) then exists j r, run false v (handler up a h) m = (m', j, Ok r) /\ p' = Done (Ok r)
   else m' = m /\ forall r, p' = Done (Ok r) -> lock_held e = true /\ exists n, r = RError n)
  /\ hstage ((h, HDoes e) :: l) E' h p'.
Proof.
  intros R I L HE HR Ha Hv [(C & ->)|(c & q & C & F & St)]; [inversion Ha|].
  destruct (state_facts _ R) as (So & Af & Ru & Sa). cbn [hs_store hs_log] in *. destruct (apart_cons _ _ I L) as [I0 _].
  destruct (act_follows _ _ _ _ _ _ _ F Ha) as (q' & Hq & F' & N).
  destruct (act_stage up v (hgot l) (hruled l) (fun _ => E h) (fun _ => E' h) c q m m' q' e) as [H1 H2].
  - exact So.
  - exact blind.
  - exact Ru.
  - exact (Sa I0).
  - intros u s -> G. apply (L [] h u l s eq_refl). now rewrite <- Af.
  - intros _. exact HE.
  - intros j x T X. eapply HR; [now rewrite (pass_effect _ _ _ _ C N)|]. eapply run_follows; [eapply handler_follows; exact C|exact X].
  - exact Hq.
  - exact St.
  - rewrite (pass_effect _ _ _ _ C N). split.
    + destruct (takes_effect (c, e)).
      * destruct H1 as (j & x & X & ->). exists j, (finish a h x). split; [eapply run_follows; [eapply handler_follows; exact C|exact X]|now apply follows_done].
      * destruct H1 as [-> H1]. split; [reflexivity|]. intros r ->. destruct (done_follows _ _ _ F') as (x & -> & ->). destruct (H1 _ eq_refl) as [Lx Le].
        split; [exact Le|]. destruct x as [x|er]; [discriminate Lx|]. apply finish_error.
    + right. exists c, q'. split; [exact C|]. split; [exact F'|]. eapply stage_mono; [| | |exact H2].
      * intros u s [(h' & H)| ->]; [exists h'; now right|exists h; now left].
      * intros s r o [(h' & H)| ->]; [exists h'; now right|exists h; now left].
      * auto.
Qed.

Lemma reply_passes h r l : came_to_pass ((h, HReply r) :: l) = came_to_pass l.
Proof. unfold came_to_pass. cbn [filter]. now destruct h. Qed.
Definition whatever (_ : hreq) (_ : res answer) : Prop := True.
Lemma hsequential x : hreachable up op a x -> sessions_apart (hs_log x) -> no_late_fetch (hs_log x) ->
  (exists l, in_turn up op a l (hs_store x) /\ map fst l = came_to_pass (hs_log x))
  /\ forall h p, In (h, p) (hs_tasks x) -> hstage (hs_log x) whatever h p.
Proof.
  unfold hreachable. remember hs_init as i. intros H. induction H as [i|i b c H IH S]; subst; intros I L.
  - split; [exists []; split; [constructor|reflexivity]|intros ? ? []].
  - assert (Rb : hreachable up op a b) by exact H. specialize (IH eq_refl).
    destruct S as [m ts l h|m m' pre h p p' post l e Ha Hv|m pre h r post l|m pre h p post l]; cbn [hs_store hs_log hs_tasks] in *.
    + destruct (IH I L) as [Sq T]. split; [exact Sq|]. intros h' p' [E|Hp]; [injection E as <- <-; apply hstage_start|auto].
    + destruct (apart_cons _ _ I L) as (I0 & L0). destruct (IH I0 L0) as [(q & Sq & Eq) T]. clear IH.
      destruct (hact m m' pre h p p' post l e whatever whatever Rb I L) as [Ef St];
        [exact (fun _ => Logic.I)|exact (fun _ _ _ _ => Logic.I)|exact Ha|exact Hv|apply T, in_mid; now left|].
      split.
      * unfold came_to_pass in *. cbn [filter]. destruct (comes_to_pass (h, HDoes e)).
        -- destruct Ef as (j & r & Ef & _). exists ((h, r) :: q). split; [econstructor; eauto|]. cbn [map fst]. now rewrite Eq.
        -- destruct Ef as [-> _]. eauto.
      * intros h' q' Hq. apply in_mid in Hq as [E|Hq]; [injection E as -> ->; exact St|].
        eapply hstage_mono; [| |apply T, in_mid; right; exact Hq]; [intros z Hz; now right|auto].
    + destruct (apart_cons _ _ I L) as (I0 & L0). destruct (IH I0 L0) as [Sq T]. split; [now rewrite reply_passes|].
      intros h' q' Hq. eapply hstage_mono; [| |apply T, in_mid; right; exact Hq]; [intros z Hz; now right|auto].
    + destruct (IH I L) as [Sq T]. split; [exact Sq|]. intros h' q' Hq. apply T, in_mid. now right.
Qed.

(** How an answer is accounted for by the history [l] since [x]. *)
Definition haccounted (x : hsys) (l : list (hreq * hevent)) (h : hreq) (r : reply) : Prop :=
  (contended h l /\ exists n, r = RError n)
  \/ (forall m, run false v (handler up a h) m = (m, [], Ok r))
  \/ exists l1 e l2 q m, l = l1 ++ (h, HDoes e) :: l2 /\ comes_to_pass (h, HDoes e) = true
       /\ in_turn up op a q m /\ map fst q = came_to_pass (l2 ++ hs_log x) /\ snd (run false v (handler up a h) m) = Ok r.
Lemma haccounted_cons x l h r z : haccounted x l h r -> haccounted x (z :: l) h r.
Proof.
  intros [((e & H & K) & N)|[H|(l1 & e & l2 & q & m & -> & H)]].
  - left. split; [exists e; split; [now right|exact K]|exact N].
  - right; now left.
  - right; right. exists (z :: l1), e, l2, q, m. split; [reflexivity|exact H].
Qed.
Lemma hstage_done l E h r : hstage l E h (Done (Ok r)) -> (exists x, E h x /\ r = finish a h x) \/ forall m, run false v (handler up a h) m = (m, [], Ok r).
Proof.
  intros [(C & X)|(c & q & C & F & S)].
  - right. intros m. injection X as ->. rewrite handler_refuses by exact C. reflexivity.
  - destruct (done_follows _ _ _ F) as (x & -> & ->). destruct (stage_done up v _ _ _ _ _ S) as [H|H]; [eauto|]. right. intros m.
    eapply run_follows; [eapply handler_follows; exact C|apply H].
Qed.
Lemma hanswered x y : hreachable up op a x -> hsteps up op a x y -> sessions_apart (hs_log y) -> no_late_fetch (hs_log y) ->
  exists l, hhistory x y l
  /\ (forall h p, In (h, p) (hs_tasks y) -> hstage (hs_log y) (fun h z => haccounted x l h (finish a h z)) h p \/ ~ idle h x)
  /\ forall newer h r older, l = newer ++ (h, HReply r) :: older -> ~ idle h x \/ haccounted x older h r.
Proof.
  intros R H. induction H as [x|x b d H IH S]; intros I L.
  - exists []. split; [reflexivity|]. split; [|intros [|? ?] ? ? ? E; discriminate E]. intros h p Hp. right. intros N. exact (N p Hp).
  - specialize (IH R). assert (Rb : hreachable up op a b) by (eapply hsteps_trans; [exact R|exact H]). unfold hhistory in *.
    destruct S as [m ts l h|m m' pre h p p' post l e Ha Hv|m pre h r post l|m pre h p post l]; cbn [hs_store hs_log hs_tasks] in *.
    + destruct (IH I L) as (k & Hk & T & A). exists k. split; [exact Hk|]. split; [|exact A].
      intros h' p' [E|Hp]; [injection E as <- <-; left; apply hstage_start|auto].
    + destruct (apart_cons _ _ I L) as (I0 & L0). destruct (IH I0 L0) as (k & Hk & T & A). clear IH.
      exists ((h, HDoes e) :: k). split; [now rewrite Hk|]. split.
      * intros h' q' Hq. apply in_mid in Hq as [E|Hq].
        -- injection E as -> ->. destruct (T h p) as [St|Bu]; [apply in_mid; now left| |now right]. left.
           destruct (hsequential _ Rb I0 L0) as [(q & Sq & Eq) _]. cbn [hs_store hs_log] in Sq, Eq.
           eapply (hact m m' pre h p p' post l e _ (fun h z => haccounted x ((h, HDoes e) :: k) h (finish a h z)) Rb I L).
           ++ intros Lk. left. split; [exists e; split; [now left|exact Lk]|apply finish_error].
           ++ intros j z Te Er. right; right. exists [], e, k, q, m. rewrite <- Hk. rewrite Er. auto.
           ++ exact Ha.
           ++ exact Hv.
           ++ exact St.
        -- destruct (T h' q') as [St|Bu]; [apply in_mid; now right| |now right]. left.
           eapply hstage_mono; [| |exact St]; [intros z Hz; now right|]. intros z. apply haccounted_cons.
      * intros [|z n] h' r o E; [discriminate E|]. cbn in E; injection E as E1 E2. subst; eapply A; reflexivity.
    + destruct (apart_cons _ _ I L) as (I0 & L0). destruct (IH I0 L0) as (k & Hk & T & A). clear IH.
      exists ((h, HReply r) :: k). split; [now rewrite Hk|]. split.
      * intros h' q' Hq. destruct (T h' q') as [St|Bu]; [apply in_mid; now right| |now right]. left.
        eapply hstage_mono; [| |exact St]; [intros z Hz; now right|]. intros z. apply haccounted_cons.
      * intros [|z n] h' r' o E; cbn in E; injection E as E1 E2; [|subst; eapply A; reflexivity]. subst.
        destruct (T h' (Done (Ok r'))) as [St|Bu]; [apply in_mid; now left| |now left]. right.
        apply hstage_done in St as [(z & Az & ->)|St]; [exact Az|]. right. now left.
    + destruct (IH I L) as (k & Hk & T & A). exists k. split; [exact Hk|]. split; [|exact A].
      intros h' p' Hp. apply T, in_mid. now right.
Qed.

(* ------------------------------------------------------------ all requests answered *)
Definition ready (t : hreq * prog reply) : list (hreq * reply) := match snd t with Done (Ok r) => [(fst t, r)] | _ => [] end.
Lemma ready_mid pre t post : flat_map ready (pre ++ t :: post) = flat_map ready pre ++ ready t ++ flat_map ready post.
Proof. rewrite flat_map_app. reflexivity. Qed.
Lemma replies_cons h e l : replies ((h, e) :: l) = replies l ++ match e with HReply r => [(h, r)] | HDoes _ => [] end.
Proof. unfold replies. cbn [rev]. rewrite flat_map_app. cbn [flat_map fst snd]. now rewrite app_nil_r. Qed.
Lemma undropped_reachable x : undropped up op a x -> hreachable up op a x.
Proof. induction 1 as [|x y H IH S _]; [apply hsteps_refl|]. eapply hsteps_snoc; [exact IH|exact S]. Qed.
Definition set_aside (l : list (hreq * hevent)) (extra : list (hreq * reply)) : Prop :=
  forall h r, In (h, r) extra -> contended h l /\ exists n, r = RError n.
Lemma aside_cons z l extra : set_aside l extra -> set_aside (z :: l) extra.
Proof. intros H h r X. destruct (H h r X) as [(e & I & K) N]. split; [exists e; split; [now right|exact K]|exact N]. Qed.
Lemma harranged x : undropped up op a x -> sessions_apart (hs_log x) -> no_late_fetch (hs_log x) ->
  exists l extra, in_turn up op a l (hs_store x) /\ set_aside (hs_log x) extra
    /\ Permutation (replies (hs_log x) ++ flat_map ready (hs_tasks x)) (l ++ extra).
Proof.
  intros U. induction U as [|x y U IH S N]; intros I L.
  - exists [], []. split; [constructor|]. split; [intros h r []|reflexivity].
  - pose proof (undropped_reachable _ U) as R.
    destruct S as [m ts l h|m m' pre h p p' post l e Ha Hv|m pre h r post l|m pre h p post l]; cbn [hs_store hs_log hs_tasks] in *.
    + destruct (IH I L) as (q & ex & Sq & Ax & Pq). cbn [flat_map].
      destruct (ready (h, handler up a h)) as [|[h0 r] d] eqn:D; [exists q, ex; auto|]. unfold ready in D. cbn [snd fst] in D.
      destruct (handler up a h) as [[r0|er]| | | | |] eqn:Eh; try discriminate D. injection D as <- <- <-.
      exists ((h, r0) :: q), ex. split; [econstructor; [exact Sq|rewrite Eh; reflexivity]|]. split; [exact Ax|].
      cbn [app]. symmetry. apply Permutation_cons_app. now symmetry.
    + destruct (apart_cons _ _ I L) as (I0 & L0). destruct (IH I0 L0) as (q & ex & Sq & Ax & Pq). clear IH.
      destruct (hsequential _ R I0 L0) as [_ T]. cbn [hs_tasks hs_log] in T.
      destruct (hact m m' pre h p p' post l e whatever whatever R I L) as [Ef _];
        [exact (fun _ => Logic.I)|exact (fun _ _ _ _ => Logic.I)|exact Ha|exact Hv|apply T, in_mid; now left|].
      rewrite replies_cons, app_nil_r. rewrite ready_mid in *.
      assert (D0 : ready (h, p) = []) by (unfold ready; cbn [snd]; destruct p as [r| | | | |]; try reflexivity; destruct (act_due _ _ _ _ _ Ha r eq_refl)).
      rewrite D0 in Pq. cbn [app] in Pq. destruct (comes_to_pass (h, HDoes e)).
      * destruct Ef as (j & r & Er & ->). exists ((h, r) :: q), ex. split; [econstructor; eauto|]. split; [now apply aside_cons|].
        unfold ready at 2. cbn [snd fst app]. rewrite app_assoc in *. symmetry. apply Permutation_cons_app. now symmetry.
      * destruct Ef as [-> Nl]. destruct (ready (h, p')) as [|[h0 r] d] eqn:D.
        -- exists q, ex. split; [exact Sq|]. split; [now apply aside_cons|exact Pq].
        -- unfold ready in D. cbn [snd fst] in D. destruct p' as [[r0|er]| | | | |]; try discriminate D. injection D as <- <- <-.
           destruct (Nl r0 eq_refl) as [Lk En]. exists q, ((h, r0) :: ex). split; [exact Sq|]. split.
           ++ intros h1 r1 [X|X]; [injection X as <- <-; split; [exists e; split; [now left|exact Lk]|exact En]|]. exact (aside_cons _ _ _ Ax _ _ X).
           ++ cbn [app]. rewrite app_assoc in *. etransitivity; [|apply Permutation_middle]. symmetry. apply Permutation_cons_app. now symmetry.
    + destruct (apart_cons _ _ I L) as (I0 & L0). destruct (IH I0 L0) as (q & ex & Sq & Ax & Pq). clear IH.
      exists q, ex. split; [exact Sq|]. split; [now apply aside_cons|]. rewrite replies_cons, flat_map_app. rewrite ready_mid in Pq. unfold ready in Pq at 2. cbn [snd fst] in Pq.
      rewrite <- Pq. rewrite <- !app_assoc. apply Permutation_app_head. apply Permutation_app_swap_app.
    + rewrite !app_length in N. cbn [length] in N. lia.
Qed.
End S.

(* ------------------------------------------------------------ wallets that answer once they have the request *)
Lemma pfinish_marks {A B} (f : res A -> B) (p : prog A) : marks_read p -> marks_read (pfinish f p) /\ forall u, marks u (pfinish f p) <-> marks u p.
Proof.
  assert (K : forall q : prog A, forall u, marks u (pfinish f q) <-> marks u q) by (intros [r|s k|v st k|v k|v k|s r k] u; cbn; tauto).
  intros M. split; [|apply K]. induction p as [r|s k IH|v st k IH|v k IH|v k IH|s r k IH]; cbn [pfinish marks_read] in *; [exact I|..];
    intros x; destruct (M x) as [N R]; (split; [intros u Hu; apply K in Hu; eapply N; exact Hu|apply IH, R]).
Qed.
Lemma pmap_marks {A B} (f : A -> B) (p : prog A) : marks_read (pmap f p) -> marks_read p.
Proof.
  assert (K : forall q : prog A, forall u, marks u (pmap f q) <-> marks u q) by (intros [r|s k|v st k|v k|v k|s r k] u; cbn; tauto).
  induction p as [r|s k IH|v st k IH|v k IH|v k IH|s r k IH]; cbn [pmap marks_read] in *; intros M; [exact I|..];
    intros x; destruct (M x) as [N R]; (split; [intros u Hu; apply K in Hu; eapply N; exact Hu|apply IH, R]).
Qed.
Lemma pmap_marks_none {A B} (f : A -> B) (p : prog A) : (forall u, ~ marks u (pmap f p)) -> forall u, ~ marks u p.
Proof. intros N u H. apply (N u). destruct p; exact H. Qed.
Section L.
Variable up : string -> option url.
Variable op : string -> res string.
Variable a : adapter.
Lemma handler_marks h : (forall u, ~ marks u (handler up a h)) /\ marks_read (handler up a h).
Proof.
  assert (D : forall A (f : A -> answer) (g : res A -> reply) (p : prog A) c, code up c = pmap f p -> (forall u, ~ marks u (pfinish g p)) /\ marks_read (pfinish g p)).
  { intros A f g p c E. destruct (code_marks up c) as [N M]. rewrite E in N, M. apply pmap_marks in M. destruct (pfinish_marks g p M) as [M' K]. split; [|exact M'].
    intros u Hu. apply K in Hu. exact (pmap_marks_none f p N u Hu). }
  assert (X : (forall u, ~ marks u (Done (Ok (RError 400)))) /\ marks_read (Done (Ok (RError 400)))) by (split; [intros u []|exact I]).
  destruct h as [n f id|sid|sid body|sid]; cbn [handler].
  - unfold initiate_request. eapply (D _ _ _ _ (CBuild (initiate_builder a n f) id (ap_wallet a))). reflexivity.
  - unfold get_request_object. destruct (uuid_of_string sid) as [u|]; [|exact X]. eapply (D _ _ _ _ (CRetrieve u)). reflexivity.
  - unfold receive_response. destruct (utf8_valid body); [|exact X]. destruct (uuid_of_string sid) as [u|]; [|exact X]. destruct (from_form body) as [r|]; [|exact X].
    eapply (D _ _ _ _ (CVerify u r)). reflexivity.
  - unfold get_status. destruct (uuid_of_string sid) as [u|]; [|exact X]. eapply (D _ _ _ _ (CPoll u)). reflexivity.
Qed.
Lemma task_in hs cs : tasks a hs cs -> forall h p, In (h, p) hs ->
  call_of a h = None /\ p = Done (Ok (RError 400)) \/ exists c q, call_of a h = Some c /\ In (c, q) cs /\ follows (finish a h) p q.
Proof.
  induction 1 as [|h0 hs cs C T IH|h0 c p0 q hs cs C F T IH]; intros h p; [intros []|..].
  - intros [E|H]; [injection E as <- <-; auto|auto].
  - intros [E|H]; [injection E as <- <-; right; exists c, q; split; [exact C|]; split; [now left|exact F]|].
    destruct (IH h p H) as [D|(c' & q' & C' & H' & F')]; [auto|]. right. exists c', q'. split; [exact C'|]. split; [now right|exact F'].
Qed.
Lemma follows_marks f p q u : follows f p q -> marks u p -> marks u q.
Proof. intros F. destruct F as [| |v st| | |]; auto. Qed.
Lemma later_marks x : answered_later up op a x -> hreachable up op a x /\ no_late_fetch (hs_log x)
  /\ (forall h p, In (h, p) (hs_tasks x) -> marks_read p)
  /\ forall h p u s, In (h, p) (hs_tasks x) -> marks u p -> st_get u (hs_store x) = Some s -> (progress (s_status s) <= 1)%N.
Proof.
  induction 1 as [|x y F (R & L & M & P) S C].
  - split; [apply hsteps_refl|]. split; [intros [|? ?] ? ? ? ? E; discriminate E|]. split; [intros ? ? []|intros ? ? ? ? []].
  - assert (Ry : hreachable up op a y) by (eapply hsteps_snoc; [exact R|exact S]). split; [exact Ry|].
    destruct (state_facts up op a _ R) as (So & Af & _). destruct (simulated _ _ _ _ R) as (z & Rz & _ & Tz & _). pose proof (inv_reachable _ _ Rz) as Inv.
    destruct S as [m ts l h|m m' pre h p p' post l e Ha Hv|m pre h r post l|m pre h p post l]; cbn [hs_store hs_log hs_tasks] in *.
    + split; [exact L|]. destruct (handler_marks h) as [Cn Cm]. split.
      * intros h' p' [E|H]; [injection E as <- <-; exact Cm|eauto].
      * intros h' p' u s [E|H]; [injection E as <- <-; intros X; destruct (Cn u X)|eauto].
    + assert (Ip : In (h, p) (pre ++ (h, p) :: post)) by (apply in_mid; now left).
      destruct (act_marks _ _ _ _ _ Ha (M _ _ Ip)) as [M' K]. split; [|split].
      * intros [|z0 n] h' u o s E; cbn in E; injection E as E1 E2; [|subst; eapply L; reflexivity]. subst. intros Au.
        apply (P h' p u s Ip); [|now rewrite Af]. inversion Ha; subst. reflexivity.
      * intros h' q' H. destruct (in_task h p p' _ _ _ H) as [E|H']; [injection E as -> ->; exact M'|eauto].
      * intros h' q' u s H Hm G. destruct (in_task h p p' _ _ _ H) as [E|H'].
        -- injection E as -> ->. destruct (K u Hm) as (-> & s0 & G0 & S0). rewrite G0 in G. injection G as <-. rewrite S0. cbn. lia.
        -- assert (Cr : exists sid, h' = HRequest sid /\ uuid_of_string sid = Some u).
           { destruct (task_in _ _ Tz _ _ H') as [(_ & ->)|(c & q & Cc & Hq & Fq)]; [destruct Hm|].
             apply (follows_marks _ _ _ _ Fq) in Hm. destruct (inv_tasks _ Inv _ _ Hq) as [_ J]. destruct q as [|s1 k|u1 st k|u1 k|u1 k|s1 r1 k]; try destruct Hm. destruct st; try destruct Hm.
             cbn [just] in J. destruct J as [[(_ & Ec & _)|(o & ? & ? & Eo & _)] _]; [|discriminate Eo]. rewrite Ec in Cc.
             destruct h' as [n f id|sid|sid body|sid]; cbn in Cc.
             - discriminate.
             - destruct (uuid_of_string sid) as [w|] eqn:E; [|discriminate]. injection Cc as <-. eauto.
             - destruct (utf8_valid body); [|discriminate]. destruct (uuid_of_string sid); [|discriminate]. destruct (from_form body); discriminate.
             - destruct (uuid_of_string sid); discriminate. }
           destruct Cr as (sid & -> & Us).
           destruct (task_in _ _ Tz _ _ Ip) as [(_ & ->)|(c & q & Cc & Hq & Fq)]; [inversion Ha|].
           destruct (act_follows _ _ _ _ _ _ _ Fq Ha) as (qn & Hqn & _ & _). destruct (inv_tasks _ Inv _ _ Hq) as [T J].
           destruct (act_progress _ _ _ _ _ _ Hqn So T u s G) as [Q|Q]; [| |exact Q|eauto].
           ++ intros o Ee. subst e. exact (C h u o eq_refl sid q' Us H').
           ++ intros Ee. subst e. inversion Hqn; subst. cbn [just] in J. destruct J as [[(Es & _)|(o & ? & ? & Eo & _)] _]; discriminate.
    + assert (Sub : forall t, In t (pre ++ post) -> In t (pre ++ (h, Done (Ok r)) :: post)) by (intros t Ht; apply in_mid; now right).
      split; [|split; eauto]. intros [|z0 n] h' u o s E; [discriminate E|]. cbn in E; injection E as E1 E2. subst; eapply L; reflexivity.
    + assert (Sub : forall t, In t (pre ++ post) -> In t (pre ++ (h, p) :: post)) by (intros t Ht; apply in_mid; now right).
      split; [exact L|]. split; eauto.
Qed.
End L.

(** C123: whatever the interleaving of HTTP requests to the example verifier, if session ids are not shared and no request is
    marked as sent after its response was judged, the sessions are those left by the requests that took effect, each served
    alone, one after the other, in the order in which they took effect. *)
Lemma c123_sequential_pf
  : forall (url_parse : string -> option url) (jwe_open : string -> res string) (a : adapter) (x : hsys),
    hreachable url_parse jwe_open a x -> sessions_apart (hs_log x) -> no_late_fetch (hs_log x) ->
    exists l, in_turn url_parse jwe_open a l (hs_store x) /\ map fst l = came_to_pass (hs_log x).
Proof. intros up op a x R I L. exact (proj1 (hsequential up op a x R I L)). Qed.

(** C123: and each request got the answer it gets in that sequence: unless it found the lock held and was answered with an
    error, or is answered so whatever the sessions, it took effect at a moment between its start and its answer, and its
    answer is the one it gets when served alone on the sessions that the requests before that moment leave. *)
Lemma c123_answers_pf
  : forall (url_parse : string -> option url) (jwe_open : string -> res string) (a : adapter) (x y : hsys) (h : hreq) (r : reply)
           (newer older : list (hreq * hevent)),
    hreachable url_parse jwe_open a x -> hsteps url_parse jwe_open a x y ->
    sessions_apart (hs_log y) -> no_late_fetch (hs_log y) -> idle h x ->
    hs_log y = newer ++ (h, HReply r) :: older ++ hs_log x ->
    (contended h older /\ exists n, r = RError n)
    \/ (forall m, run false (app_validator jwe_open) (handler url_parse a h) m = (m, [], Ok r))
    \/ exists l1 e l2 q m, older = l1 ++ (h, HDoes e) :: l2 /\ comes_to_pass (h, HDoes e) = true
         /\ in_turn url_parse jwe_open a q m /\ map fst q = came_to_pass (l2 ++ hs_log x)
         /\ snd (run false (app_validator jwe_open) (handler url_parse a h) m) = Ok r.
Proof.
  intros up op a x y h r n o R H I L N E. destruct (hanswered up op a x y R H I L) as (l & Hl & _ & A). unfold hhistory in Hl.
  assert (El : l = n ++ (h, HReply r) :: o).
  { apply (app_inv_tail (hs_log x)). rewrite <- Hl, E, <- app_assoc. reflexivity. }
  destruct (A n h r o El) as [B|Ac]; [destruct (B N)|exact Ac].
Qed.

(** C123: when no request was dropped and all have been answered, the requests with their answers, error answers apart of
    requests that found the lock held, can be arranged in an order in which, served alone one after the other, they get these
    very answers and leave these very sessions. *)
Lemma c123_arranged_pf
  : forall (url_parse : string -> option url) (jwe_open : string -> res string) (a : adapter) (x : hsys),
    undropped url_parse jwe_open a x -> hs_tasks x = [] -> sessions_apart (hs_log x) -> no_late_fetch (hs_log x) ->
    exists l extra, in_turn url_parse jwe_open a l (hs_store x) /\ Permutation (replies (hs_log x)) (l ++ extra)
      /\ forall h r, In (h, r) extra -> contended h (hs_log x) /\ exists n, r = RError n.
Proof.
  intros up op a x U T I L. destruct (harranged up op a x U I L) as (l & ex & O & A & P). exists l, ex. split; [exact O|]. split; [|exact A].
  rewrite T in P. cbn [flat_map] in P. now rewrite app_nil_r in P.
Qed.

(** C123: the last condition is met when no fetch of a request object is under way while a verdict on the response to it is
    recorded; so requests of wallets that answer once they have the request act as if served one at a time. *)
Lemma c123_in_time_pf
  : forall (url_parse : string -> option url) (jwe_open : string -> res string) (a : adapter) (x : hsys),
    answered_later url_parse jwe_open a x -> sessions_apart (hs_log x) ->
    no_late_fetch (hs_log x)
    /\ exists l, in_turn url_parse jwe_open a l (hs_store x) /\ map fst l = came_to_pass (hs_log x).
Proof.
  intros up op a x F I. destruct (later_marks up op a x F) as (R & L & _). split; [exact L|]. exact (proj1 (hsequential up op a x R I L)).
Qed.

(* ------------------------------------------------------------ a fetch and a response, overlapping *)
Definition xa := toy_adapter true.
Notation xun := (undropped simple_parse toy_open xa).
Definition xi := HInitiate (Some "nonce") 1%N 7%N.
Definition xr := HRequest toy_sid.
Definition xv := HResponse toy_sid "response=a.b.c".
Definition xo := OSuccess toy_info.
Definition xresp := Jwt "a.b.c".
Definition xrecord : prog reply := Update 7%N (Complete xo) (fun x : res unit => pfinish response_reply (Done x)).
Lemma x_start m ts l h : xun (mk_hsys m ts l) -> xun (mk_hsys m ((h, handler simple_parse xa h) :: ts) l).
Proof. intros H. eapply undropped_step; [exact H|apply h_start|]. left. cbn. lia. Qed.
Lemma x_act m m' pre h p p' post l e : act m p m' p' e -> (forall s r o, e = EvValidate s r o -> o = app_validator toy_open s r) ->
  xun (mk_hsys m (pre ++ (h, p) :: post) l) -> xun (mk_hsys m' (pre ++ (h, p') :: post) ((h, HDoes e) :: l)).
Proof. intros Ha Hv H. eapply undropped_step; [exact H|now apply h_act|]. right. cbn. lia. Qed.
Lemma x_return m pre h r post l : xun (mk_hsys m (pre ++ (h, Done (Ok r)) :: post) l) -> xun (mk_hsys m (pre ++ post) ((h, HReply r) :: l)).
Proof. intros H. eapply undropped_step; [exact H|apply h_return|]. right. cbn. lia. Qed.
Lemma xi_handler : match handler simple_parse xa xi with
  | Initiate s k => N.eqb (s_uuid s) 7 && match s_status s with SentRequestByReference => true | _ => false end
                    && match k (Ok tt) with Done (Ok (RJson n _)) => N.eqb n 200 | _ => false end
  | _ => false
  end = true.
Proof. vm_compute. reflexivity. Qed.
Lemma xr_handler : handler simple_parse xa xr = pfinish request_reply (retrieve_code 7%N).
Proof. unfold xr. cbn [handler]. unfold get_request_object. now rewrite toy_sid_is. Qed.
Lemma xv_handler : handler simple_parse xa xv = pfinish response_reply (verify_code 7%N xresp).
Proof. unfold xv. cbn [handler]. unfold receive_response. now rewrite (proj1 toy_body), toy_sid_is, (proj2 toy_body). Qed.
Definition xlog (s : session) (j : json) : list (hreq * hevent) :=
  [(xv, HDoes (EvValidate s xresp xo)); (xv, HDoes (EvGet 7%N (Ok s))); (xr, HDoes (EvGet 7%N (Ok s)));
   (xi, HReply (RJson 200 j)); (xi, HDoes (EvInitiate s (Ok tt)))].
Lemma x_overlap : exists s j k, s_uuid s = 7%N /\ s_status s = SentRequestByReference
  /\ handler simple_parse xa xi = Initiate s k /\ k (Ok tt) = Done (Ok (RJson 200 j))
  /\ xun (mk_hsys [(7%N, s)] [(xr, toy_rest s); (xv, xrecord)] (xlog s j)).
Proof.
  pose proof xi_handler as X. destruct (handler simple_parse xa xi) as [|s k| | | |] eqn:Eh; try discriminate X.
  apply andb_true_iff in X as [X K]. apply andb_true_iff in X as [U St]. apply N.eqb_eq in U.
  destruct (k (Ok tt)) as [[r0|]| | | | |] eqn:Ek; try discriminate K. destruct r0 as [n j| |]; try discriminate K. apply N.eqb_eq in K. subst n.
  assert (S0 : s_status s = SentRequestByReference) by (destruct (s_status s); congruence).
  exists s, j, k. split; [exact U|]. split; [exact S0|]. split; [reflexivity|]. split; [exact Ek|].
  assert (G : get_session false 7%N [(7%N, s)] = Ok s) by reflexivity.
  unfold xlog. apply (x_act [(7%N, s)] [(7%N, s)] [(xr, toy_rest s)] xv (Validate s xresp (fun o => Update 7%N (Complete o) (fun x : res unit => pfinish response_reply (Done x)))) xrecord []).
  { exact (act_validate [(7%N, s)] s xresp (fun o => Update 7%N (Complete o) (fun x : res unit => pfinish response_reply (Done x))) xo). }
  { intros s1 r1 o1 E. injection E as <- <- <-. symmetry. apply toy_judged. }
  apply (x_act [(7%N, s)] [(7%N, s)] [(xr, toy_rest s)] xv (handler simple_parse xa xv) _ []).
  { rewrite xv_handler. unfold verify_code. cbn [pfinish]. rewrite <- G.
    exact (act_get [(7%N, s)] 7%N (fun x => pfinish response_reply (match x with Err e => Done (Err e) | Ok s => Validate s xresp (fun o => Update 7%N (Complete o) (fun x => Done x)) end)) false). }
  { discriminate. }
  apply (x_act [(7%N, s)] [(7%N, s)] [] xr (handler simple_parse xa xr) (toy_rest s) [(xv, handler simple_parse xa xv)]).
  { rewrite xr_handler. unfold retrieve_code. cbn [pfinish].
    pose proof (act_get [(7%N, s)] 7%N (fun x => pfinish request_reply (match x with
      | Err e => Done (Err e)
      | Ok s => if status_lt (s_status s) SentRequest then Update 7%N SentRequest (fun x => Done (rmap (fun _ => s_jwt s) x)) else Done (Ok (s_jwt s)) end)) false) as A.
    rewrite G in A. rewrite S0 in A. exact A. }
  { discriminate. }
  cbn [app]. apply x_start, x_start. apply (x_return _ [] xi (RJson 200 j) []).
  apply (x_act [] [(7%N, s)] [] xi (Initiate s k) (Done (Ok (RJson 200 j))) []).
  - rewrite <- Ek. apply (act_initiate [] s k false [(7%N, s)] (Ok tt)). cbn [initiate st_insert]. now rewrite U.
  - discriminate.
  - cbn [app]. rewrite <- Eh. apply x_start, undropped_init.
Qed.
(** The mark before the verdict. *)
Definition x_in_time (s : session) (j : json) : list (hreq * hevent) :=
  (xr, HReply (RJwt (s_jwt s))) :: (xv, HReply (RJson 200 (JObj []))) :: (xv, HDoes (EvUpdate 7%N (Complete xo) (Ok tt))) :: (xr, HDoes (EvUpdate 7%N SentRequest (Ok tt))) :: xlog s j.
Lemma x_in_time_undropped : exists s j, s_uuid s = 7%N /\ s_status s = SentRequestByReference
  /\ xun (mk_hsys [(7%N, set_status (set_status s SentRequest) (Complete xo))] [] (x_in_time s j)).
Proof.
  destruct x_overlap as (s & j & k & U & St & _ & _ & H). exists s, j. split; [exact U|]. split; [exact St|]. unfold x_in_time.
  apply (x_return _ [] xr _ []). apply (x_return _ [(xr, Done (Ok (RJwt (s_jwt s))))] xv (RJson 200 (JObj [])) []).
  apply (x_act [(7%N, set_status s SentRequest)] _ [(xr, Done (Ok (RJwt (s_jwt s))))] xv xrecord (Done (Ok (RJson 200 (JObj [])))) []).
  { exact (act_update [(7%N, set_status s SentRequest)] 7%N (Complete xo) (fun x : res unit => pfinish response_reply (Done x)) false _ (Ok tt) eq_refl). }
  { discriminate. }
  apply (x_act [(7%N, s)] _ [] xr (toy_rest s) (Done (Ok (RJwt (s_jwt s)))) [(xv, xrecord)]).
  { apply toy_act. }
  { discriminate. }
  exact H.
Qed.
Lemma x_in_time_orderly s j : s_uuid s = 7%N -> s_status s = SentRequestByReference ->
  sessions_apart (x_in_time s j) /\ no_late_fetch (x_in_time s j).
Proof.
  intros U St. split.
  - intros u t t' [_ (c & H)] [_ (c' & H')]. unfold x_in_time, xlog in H, H'. in_log H. in_log H'. injection H as _ <-. injection H' as _ <-. apply same_refl.
  - intros n h u o t E. unfold x_in_time, xlog in E.
    do 3 (destruct n as [|? n]; [discriminate E|injection E as _ E]).
    destruct n as [|? n].
    + injection E as _ <- <-. cbn [hafter effect]. unfold aset, aempty. rewrite U. cbn. intros E. injection E as <-. rewrite St. cbn. lia.
    + injection E as _ E. do 5 (destruct n as [|? n]; [discriminate E|injection E as _ E]). destruct n; discriminate E.
Qed.
Example c123_sequential_ex :
  exists x, hreachable simple_parse toy_open xa x /\ sessions_apart (hs_log x) /\ no_late_fetch (hs_log x) /\ came_to_pass (hs_log x) = [xv; xr; xi].
Proof.
  destruct x_in_time_undropped as (s & j & U & St & H). eexists. split; [exact (undropped_reachable _ _ _ _ H)|]. cbn [hs_log].
  destruct (x_in_time_orderly s j U St) as (I & L). split; [exact I|]. split; [exact L|].
  unfold came_to_pass, x_in_time, xlog, xr, xv, xi. cbn [filter comes_to_pass got_lock]. rewrite St. reflexivity.
Qed.
Lemma unrecorded_later x : hreachable simple_parse toy_open xa x -> (forall h u o, ~ In (h, HDoes (EvUpdate u (Complete o) (Ok tt))) (hs_log x)) ->
  answered_later simple_parse toy_open xa x.
Proof.
  unfold hreachable. remember hs_init as i eqn:Ei. intros H. induction H as [i|i b c H IH S]; subst i; intros N; [constructor|].
  eapply later_step; [apply IH; [reflexivity|]|exact S|].
  - intros h u o X. apply (N h u o). destruct S; cbn [hs_log] in *; auto; now right.
  - intros h u o E. destruct (N h u o). rewrite E. now left.
Qed.
Example c123_in_time_ex :
  exists x, answered_later simple_parse toy_open xa x /\ sessions_apart (hs_log x) /\ came_to_pass (hs_log x) = [xv; xr; xi].
Proof.
  destruct x_overlap as (s & j & k & U & St & _ & _ & H).
  set (l := (xr, HReply (RJwt (s_jwt s))) :: (xr, HDoes (EvUpdate 7%N SentRequest (Ok tt))) :: xlog s j).
  exists (mk_hsys [(7%N, set_status (set_status s SentRequest) (Complete xo))] [(xv, Done (Ok (RJson 200 (JObj []))))] ((xv, HDoes (EvUpdate 7%N (Complete xo) (Ok tt))) :: l)).
  cbn [hs_log]. split; [|split].
  - assert (R : answered_later simple_parse toy_open xa (mk_hsys [(7%N, set_status s SentRequest)] [(xv, xrecord)] l)).
    { apply unrecorded_later; [|intros h u o X; unfold l, xlog in X; cbn [hs_log] in X; in_log X]. apply undropped_reachable. unfold l.
      apply (x_return _ [] xr (RJwt (s_jwt s)) [(xv, xrecord)]).
      apply (x_act [(7%N, s)] _ [] xr (toy_rest s) (Done (Ok (RJwt (s_jwt s)))) [(xv, xrecord)]); [apply toy_act|discriminate|exact H]. }
    eapply later_step; [exact R| |].
    + apply (h_act simple_parse toy_open xa [(7%N, set_status s SentRequest)] _ [] xv xrecord (Done (Ok (RJson 200 (JObj [])))) []); [|discriminate].
      exact (act_update [(7%N, set_status s SentRequest)] 7%N (Complete xo) (fun x : res unit => pfinish response_reply (Done x)) false _ (Ok tt) eq_refl).
    + intros h u o _ sid p _ [E|[]]. discriminate E.
  - intros u t t' [_ (c & X)] [_ (c' & X')]. unfold l, xlog in X, X'. in_log X. in_log X'. injection X as _ <-. injection X' as _ <-. apply same_refl.
  - unfold came_to_pass, l, xlog, xr, xv, xi. cbn [filter comes_to_pass got_lock]. rewrite St. reflexivity.
Qed.
Example c123_answers_ex :
  exists y newer older, hreachable simple_parse toy_open xa hs_init /\ hsteps simple_parse toy_open xa hs_init y
    /\ sessions_apart (hs_log y) /\ no_late_fetch (hs_log y) /\ idle xv hs_init
    /\ hs_log y = newer ++ (xv, HReply (RJson 200 (JObj []))) :: older ++ hs_log hs_init
    /\ In (xr, HDoes (EvUpdate 7%N SentRequest (Ok tt))) older.
Proof.
  destruct x_in_time_undropped as (s & j & U & St & H). eexists. exists [(xr, HReply (RJwt (s_jwt s)))]. eexists.
  split; [apply hsteps_refl|]. split; [exact (undropped_reachable _ _ _ _ H)|]. cbn [hs_log].
  destruct (x_in_time_orderly s j U St) as (I & L). split; [exact I|]. split; [exact L|].
  split; [intros p []|]. split; [cbn [hs_log hs_init]; rewrite app_nil_r; reflexivity|]. cbn. auto.
Qed.
Example c123_arranged_ex :
  exists x, undropped simple_parse toy_open xa x /\ hs_tasks x = [] /\ sessions_apart (hs_log x) /\ no_late_fetch (hs_log x)
    /\ length (replies (hs_log x)) = 3 /\ forall h, ~ contended h (hs_log x).
Proof.
  destruct x_in_time_undropped as (s & j & U & St & H). eexists. split; [exact H|]. split; [reflexivity|]. cbn [hs_log].
  destruct (x_in_time_orderly s j U St) as (I & L). split; [exact I|]. split; [exact L|]. split; [reflexivity|].
  intros h (e & Hi & K). unfold x_in_time, xlog in Hi. in_log Hi; injection Hi as _ <-; discriminate K.
Qed.

(** The mark after the verdict. *)
Definition x_too_late (s : session) (j : json) : list (hreq * hevent) :=
  (xr, HReply (RJwt (s_jwt s))) :: (xv, HReply (RJson 200 (JObj []))) :: (xr, HDoes (EvUpdate 7%N SentRequest (Ok tt))) :: (xv, HDoes (EvUpdate 7%N (Complete xo) (Ok tt))) :: xlog s j.
Lemma run_xv_none x m' j : run false (app_validator toy_open) (handler simple_parse xa xv) [] = (m', j, x) -> x = Ok (RError 500).
Proof. rewrite xv_handler. cbn. intros E. now injection E as _ _ <-. Qed.
Lemma run_xr_none x m' j : run false (app_validator toy_open) (handler simple_parse xa xr) [] = (m', j, x) -> x = Ok (RError 404).
Proof. rewrite xr_handler. cbn. intros E. now injection E as _ _ <-. Qed.
Lemma run_xv_one s : run false (app_validator toy_open) (handler simple_parse xa xv) [(7%N, s)] = ([(7%N, set_status s (Complete xo))], [(s, xresp)], Ok (RJson 200 (JObj []))).
Proof.
  rewrite xv_handler, run_pfinish. unfold verify_code. cbn [run].
  assert (G : get_session false 7%N [(7%N, s)] = Ok s) by reflexivity. rewrite G. cbn [run]. unfold xresp. rewrite toy_judged. reflexivity.
Qed.
Lemma run_xr_one s : run false (app_validator toy_open) (handler simple_parse xa xr) [(7%N, s)]
  = ([(7%N, if status_lt (s_status s) SentRequest then set_status s SentRequest else s)], [], Ok (RJwt (s_jwt s))).
Proof.
  rewrite xr_handler, run_pfinish. unfold retrieve_code. cbn [run].
  assert (G : get_session false 7%N [(7%N, s)] = Ok s) by reflexivity. rewrite G. destruct (status_lt (s_status s) SentRequest); reflexivity.
Qed.

(** C123: the last condition is needed: when a fetch that read a session before the response was judged marks it as sent
    afterwards, no order of the three requests, served alone one after the other with these answers, leaves these sessions,
    although no request found the lock held. *)
Lemma c123_late_refuted_pf
  : exists (url_parse : string -> option url) (jwe_open : string -> res string) (a : adapter) (x : hsys),
    undropped url_parse jwe_open a x /\ hs_tasks x = [] /\ sessions_apart (hs_log x) /\ (forall h, ~ contended h (hs_log x))
    /\ forall l, Permutation l (replies (hs_log x)) -> ~ in_turn url_parse jwe_open a l (hs_store x).
Proof.
  destruct x_overlap as (s & j & k & U & St & Eh & Ek & H).
  exists simple_parse, toy_open, xa, (mk_hsys [(7%N, set_status (set_status s (Complete xo)) SentRequest)] [] (x_too_late s j)). cbn [hs_store hs_tasks hs_log].
  split; [|split; [reflexivity|split; [|split]]].
  - unfold x_too_late. apply (x_return _ [] xr _ []). apply (x_return _ [(xr, Done (Ok (RJwt (s_jwt s))))] xv (RJson 200 (JObj [])) []).
    apply (x_act [(7%N, set_status s (Complete xo))] _ [] xr (toy_rest s) (Done (Ok (RJwt (s_jwt s)))) [(xv, Done (Ok (RJson 200 (JObj []))))]).
    { apply toy_act. }
    { discriminate. }
    apply (x_act [(7%N, s)] _ [(xr, toy_rest s)] xv xrecord (Done (Ok (RJson 200 (JObj [])))) []).
    { exact (act_update [(7%N, s)] 7%N (Complete xo) (fun x : res unit => pfinish response_reply (Done x)) false _ (Ok tt) eq_refl). }
    { discriminate. }
    exact H.
  - intros u t t' [_ (c & Hi)] [_ (c' & Hi')]. unfold x_too_late, xlog in Hi, Hi'. in_log Hi. in_log Hi'. injection Hi as _ <-. injection Hi' as _ <-. apply same_refl.
  - intros h (e & Hi & K). unfold x_too_late, xlog in Hi. in_log Hi; injection Hi as _ <-; discriminate K.
  - intros l P. change (replies (x_too_late s j)) with [(xi, RJson 200 j); (xv, RJson 200 (JObj [])); (xr, RJwt (s_jwt s))] in P.
    apply perm3 in P.
    assert (Rb : run false (app_validator toy_open) (handler simple_parse xa xi) [] = ([(7%N, s)], [], Ok (RJson 200 j))).
    { rewrite Eh. cbn [run initiate st_insert]. rewrite U, Ek. reflexivity. }
    intros O. destruct P as [<-|[<-|[<-|[<-|[<-|[<-|[]]]]]]];
      inversion O as [|? m2 ? ? ? ? O2 R2]; subst; inversion O2 as [|? m1 ? ? ? ? O1 R1]; subst; inversion O1 as [|? m0 ? ? ? ? O0 R0]; subst; inversion O0; subst.
    + apply run_xr_none in R0. discriminate R0.
    + apply run_xv_none in R0. discriminate R0.
    + apply run_xr_none in R0. discriminate R0.
    + apply run_xv_none in R0. discriminate R0.
    + rewrite Rb in R0. injection R0 as <- <-. rewrite run_xr_one, St in R1. injection R1 as <- <-. rewrite run_xv_one in R2. discriminate R2.
    + rewrite Rb in R0. injection R0 as <- <-. rewrite run_xv_one in R1. injection R1 as <- <-. rewrite run_xr_one in R2. discriminate R2.
Qed.
