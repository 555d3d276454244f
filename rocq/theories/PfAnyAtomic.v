From Coq Require Import Lia Sorted.
From Verif Require Import Base BaseFacts Json Url Request Metadata Dcql Response Session StoreFacts Client Builder Server AnyStore.
From Verif Require Import SpecSession SpecServer SpecBuilder SpecStore SpecAtomic SpecAnyAtomic PfBuilder PfSession PfServer PfHistory PfAtomic PfAnyStore.

(** An operation that failed. *)
Definition fails (e : event) : bool :=
  match e with
  | EvInitiate _ (Err _) | EvUpdate _ _ (Err _) | EvGet _ (Err _) | EvRemove _ (Err _) => true
  | _ => false
  end.
Lemma act_real {S A} (st : session_store S) look s s' (p p' : prog A) e m :
  faithful st look -> mirrors look s m -> act_on st s p s' p' e ->
  (fails e = false /\ exists m', act m p m' p' e /\ mirrors look s' m') \/ (fails e = true /\ mirrors look s' m).
Proof.
  intros F [So M] H. destruct H as [s0 s' t k x H|s0 s' u v k x H|s0 s' u k x H|s0 s' u k x H|s0 t r k o].
  - apply (fa_initiate _ _ F) in H. destruct x as [[]|e].
    + left. split; [reflexivity|]. exists (st_insert (s_uuid t) t m). split; [now apply (act_initiate m t k false)|]. destruct H as [H1 H2].
      split; [now apply ssorted_insert|]. intros u. rewrite st_get_insert. destruct (N.eqb_spec u (s_uuid t)) as [->|Ne]; [now rewrite H1|now rewrite H2].
    + right. split; [reflexivity|]. split; [exact So|]. intros u. now rewrite M, H.
  - apply (fa_update _ _ F) in H. destruct x as [[]|e].
    + left. split; [reflexivity|]. destruct H as (t & t' & L & W & H1 & H2). apply with_status_set in W as ->.
      exists (st_insert u (set_status t v) m). split; [apply (act_update m u v k false); unfold update_status; now rewrite M, L|].
      split; [now apply ssorted_insert|]. intros u'. rewrite st_get_insert. destruct (N.eqb_spec u' u) as [->|Ne]; [now rewrite H1|now rewrite H2].
    + right. split; [reflexivity|]. split; [exact So|]. intros u'. now rewrite M, H.
  - apply (fa_get _ _ F) in H as [U H]. destruct x as [t|e].
    + left. split; [reflexivity|]. exists m. assert (G : get_session false u m = Ok t) by (unfold get_session; now rewrite M, H).
      split; [rewrite <- G; apply (act_get m u k false)|]. split; [exact So|]. intros u'. now rewrite M, U.
    + right. split; [reflexivity|]. split; [exact So|]. intros u'. now rewrite M, U.
  - apply (fa_remove _ _ F) in H. destruct x as [[]|e].
    + left. split; [reflexivity|]. destruct H as ((t & L) & H1 & H2). exists (st_remove u m).
      split; [apply (act_remove m u k false); unfold remove_session; now rewrite M, L|]. split; [now apply ssorted_remove|].
      intros u'. rewrite st_get_remove by exact So. destruct (N.eqb_spec u' u) as [->|Ne]; [now rewrite H1|now rewrite H2].
    + right. split; [reflexivity|]. split; [exact So|]. intros u'. now rewrite M, H.
  - left. split; [reflexivity|]. exists m. split; [constructor|]. now split.
Qed.
Lemma succeeds_takes c e : fails e = false -> takes_effect (c, e) = succeeds (c, e).
Proof. destruct e as [s x|u st x|u x|u x|s r o|x]; cbn [fails]; try reflexivity; destruct x; try discriminate; intros _; destruct c; reflexivity. Qed.
Lemma fails_not c e : fails e = true -> succeeds (c, e) = false.
Proof. destruct e as [s x|u st x|u x|u x|s r o|x]; cbn [fails]; try discriminate; destruct x; try discriminate; intros _; destruct c; reflexivity. Qed.
Lemma fails_lock e : fails e = false -> lock_held e = false.
Proof. destruct e as [s x|u st x|u x|u x|s r o|x]; cbn [fails]; try reflexivity; destruct x; try discriminate; reflexivity. Qed.
Lemma stage_fails {S} up G V E (st : session_store S) s s' c p p' e : act_on st s p s' p' e -> fails e = true -> stage up G V E c p -> exists er, p' = Done (Err er).
Proof.
  intros Ha Fe St. destruct St as [c|u t Gs Sr|u r t Gs|u r t o Gs Vo|c x Ex].
  - destruct c as [b u wm|b u|u|u r|u|u]; cbn [code] in Ha.
    + unfold build_code in Ha. destruct (rb_prepare up b u wm) as [[t d]|er]; cbn [pmap] in Ha; inversion Ha; subst. destruct x; [discriminate|]. cbn. eauto.
    + unfold build_dc_code in Ha. destruct (rb_prepare_dc up b u) as [t|er]; cbn [pmap] in Ha; inversion Ha; subst. destruct x; [discriminate|]. cbn. eauto.
    + unfold retrieve_code in Ha. cbn [pmap] in Ha. inversion Ha; subst. destruct x; [discriminate|]. cbn. eauto.
    + unfold verify_code in Ha. cbn [pmap] in Ha. inversion Ha; subst. destruct x; [discriminate|]. cbn. eauto.
    + unfold poll_code in Ha. cbn [pmap] in Ha. inversion Ha; subst. destruct x; [discriminate|]. cbn. eauto.
    + unfold remove_code in Ha. cbn [pmap] in Ha. inversion Ha; subst. destruct x; [discriminate|]. cbn. eauto.
  - inversion Ha; subst. destruct x; [discriminate|]. cbn. eauto.
  - inversion Ha; subst. discriminate.
  - inversion Ha; subst. destruct x; [discriminate|]. cbn. eauto.
  - inversion Ha.
Qed.
(** What a call may set a status to, and what it may store. *)
Lemma stage_update up G V E c u st k : stage up G V E c (Update u st k) -> st = SentRequest \/ exists o, st = Complete o.
Proof.
  intros H. remember (Update u st k) as p eqn:Ep. destruct H as [c|u1 t Gs Sr|u1 r t Gs|u1 r t o Gs Vo|c x Ex]; try discriminate.
  - exfalso. destruct c as [b u1 wm|b u1|u1|u1 r|u1|u1]; cbn [code] in Ep; try discriminate.
    + unfold build_code in Ep. destruct (rb_prepare up b u1 wm) as [[t d]|er]; discriminate.
    + unfold build_dc_code in Ep. destruct (rb_prepare_dc up b u1) as [t|er]; discriminate.
  - injection Ep as _ <- _. now left.
  - injection Ep as _ <- _. right. now exists o.
Qed.
Lemma stage_initiate up G V E c s k : stage up G V E c (Initiate s k) -> initial_status (s_status s).
Proof.
  intros H. remember (Initiate s k) as p eqn:Ep. destruct H as [c|u1 t Gs Sr|u1 r t Gs|u1 r t o Gs Vo|c x Ex]; try discriminate.
  pose proof (code_targets up c) as T. rewrite Ep in T. cbn [targets] in T. tauto.
Qed.

(** Calls one by one, and then the removal of what vanished. *)
Lemma vanish_seq up v (P : uuid -> Prop) (dec : forall u, {P u} + {~ P u}) us : forall q m, ssorted m -> one_by_one up v q m ->
  (forall u s, st_get u m = Some s -> P u -> In u us) ->
  exists q' m', one_by_one up v q' m' /\ ssorted m' /\ (forall u, st_get u m' = if dec u then None else st_get u m)
    /\ (forall k, with_expiries k (map fst q) -> with_expiries k (map fst q'))
    /\ ((forall u, P u -> st_get u m = None) -> q' = q).
Proof.
  induction us as [|u us IH]; intros q m So O Cov.
  - exists q, m. split; [exact O|]. split; [exact So|]. split; [|auto]. intros u. destruct (dec u) as [D|D]; [|reflexivity].
    destruct (st_get u m) as [s|] eqn:G; [destruct (Cov _ _ G D)|reflexivity].
  - destruct (dec u) as [D|D].
    + destruct (st_get u m) as [s|] eqn:G.
      * destruct (IH ((CRemove u, Ok ANothing) :: q) (st_remove u m)) as (q' & m' & O' & So' & G' & X & _); [now apply ssorted_remove| | |].
        { eapply one_more; [exact O|]. cbn [code]. unfold remove_code. cbn [pmap run]. unfold remove_session. rewrite G. reflexivity. }
        { intros w s' Gw Pw. rewrite st_get_remove in Gw by exact So. destruct (N.eqb_spec w u) as [->|Ne]; [discriminate|]. destruct (Cov _ _ Gw Pw); [congruence|assumption]. }
        exists q', m'. split; [exact O'|]. split; [exact So'|]. split; [|split].
        -- intros w. rewrite G', st_get_remove by exact So. destruct (dec w); [reflexivity|]. destruct (N.eqb_spec w u) as [->|Ne]; [contradiction|reflexivity].
        -- intros k K. apply X. cbn [map fst]. now constructor.
        -- intros N. rewrite (N u D) in G. discriminate G.
      * apply (IH q m So O). intros w s Gw Pw. destruct (Cov _ _ Gw Pw) as [<-|I]; [congruence|exact I].
    + apply (IH q m So O). intros w s Gw Pw. destruct (Cov _ _ Gw Pw) as [<-|I]; [contradiction|exact I].
Qed.

Section S.
Variable up : string -> option url.
Variable v : session -> auth_response -> outcome.
Variable S : Type.
Variable st : session_store S.
Variable look : S -> uuid -> option session.
Hypothesis F : faithful st look.
(** [T]: how the calls executed one by one relate to those that took effect. *)
Variable T : list call -> list call -> Prop.
Hypothesis T_none : T [] [].
Hypothesis T_call : forall c l k, T l k -> T (c :: l) (c :: k).
Hypothesis T_other : forall s s' m q l, ss_other st s s' -> mirrors look s m -> one_by_one up v q m -> T l (map fst q) ->
  exists q' m', one_by_one up v q' m' /\ mirrors look s' m' /\ T l (map fst q') /\ forall u t, st_get u m' = Some t -> st_get u m = Some t.

Definition done_at (l : list (nat * (call * event))) (i : nat) (c : call) (x : res answer) : Prop :=
  forall a, x = Ok a -> exists l1 e l2 q m, l = l1 ++ (i, (c, e)) :: l2 /\ succeeds (c, e) = true
    /\ one_by_one up v q m /\ T (carried_out l2) (map fst q) /\ snd (run false v (code up c) m) = Ok a.
Lemma done_cons l i c x z : done_at l i c x -> done_at (z :: l) i c x.
Proof. intros H a E. destruct (H a E) as (l1 & e & l2 & q & m & -> & R). exists (z :: l1), e, l2, q, m. split; [reflexivity|exact R]. Qed.
Definition told (l : list (nat * (call * event))) : list (call * event) := map snd l.
Definition kept_of (l : list (nat * (call * event))) (u : uuid) (s : session) : Prop := exists s1, creates u s1 (told l) /\ same_request s1 s.
Definition early (l : list (nat * (call * event))) (u : uuid) (s : session) : Prop :=
  (progress (s_status s) <= 1)%N \/ exists j c o, In (j, (c, EvUpdate u (Complete o) (Ok tt))) l.
Record seq_inv (y : any_sys S) : Prop := {
  si_seq : exists q m, one_by_one up v q m /\ mirrors look (an_store y) m /\ T (carried_out (an_log y)) (map fst q)
           /\ forall u s, st_get u m = Some s -> kept_of (an_log y) u s /\ early (an_log y) u s;
  si_got : forall u s, got (told (an_log y)) u s -> kept_of (an_log y) u s;
  si_tasks : forall i c p, In (i, (c, p)) (an_tasks y) -> stage up (got (told (an_log y))) (ruled (told (an_log y))) (done_at (an_log y) i) c p;
  si_returns : forall newer i c x older, an_log y = newer ++ (i, (c, EvReturn x)) :: older -> done_at older i c x
}.
Lemma kept_cons l u s z : kept_of l u s -> kept_of (z :: l) u s.
Proof. intros (s1 & C & Q). exists s1. split; [now apply creates_cons|exact Q]. Qed.
Lemma early_cons l u s z : early l u s -> early (z :: l) u s.
Proof. intros [H|(j & c & o & H)]; [now left|right]. exists j, c, o. now right. Qed.
Lemma stage_cons l i c p z : stage up (got (told l)) (ruled (told l)) (done_at l i) c p -> stage up (got (told (z :: l))) (ruled (told (z :: l))) (done_at (z :: l) i) c p.
Proof.
  apply stage_mono; [intros ? ? (c1 & H1); exists c1; now right|intros ? ? ? (c1 & H1); exists c1; now right|intros ? ?; apply done_cons].
Qed.
Lemma in_time_cons z l : marked_in_time (z :: l) -> marked_in_time l.
Proof. intros H n i c u b j c' o old E. apply (H (z :: n) i c u b j c' o old). now rewrite E. Qed.
Lemma told_cons v0 z l : judged_by v0 (told (z :: l)) -> ids_apart (told (z :: l)) -> judged_by v0 (told l) /\ ids_apart (told l).
Proof.
  intros [B J] I. refine (conj (conj B _) _).
  - intros c s r o H. apply (J c s r o). now right.
  - intros u s s' H H'. apply (I u); now apply creates_cons.
Qed.
Lemma carried_cons i c e l : carried_out ((i, (c, e)) :: l) = if succeeds (c, e) then c :: carried_out l else carried_out l.
Proof. unfold carried_out. cbn [map snd filter]. destruct (succeeds (c, e)); reflexivity. Qed.

Lemma seq_step a b : any_step up S st a b -> judged_by v (told (an_log b)) -> ids_apart (told (an_log b)) -> marked_in_time (an_log b) ->
  seq_inv a -> seq_inv b.
Proof.
  intros H J I L [(q & m & O & M & Tq & K) G Ts Rs]. destruct H as [s n ts l c|s s' n pre i c p p' post l e Ha|s n pre i c r post l|s n pre i c p post l|s s' n ts l Ho];
    cbn [an_store an_tasks an_log] in *.
  - constructor; cbn [an_store an_tasks an_log]; [exists q, m; auto|exact G| |exact Rs].
    intros i' c' p' [E|Hp]; [injection E as <- <- <-; constructor|auto].
  - destruct (told_cons _ _ _ J I) as [[B J0] I0]. pose proof (proj1 M) as So.
    assert (St : stage up (got (told l)) (ruled (told l)) (done_at l i) c p) by (apply Ts, in_mid; now left).
    assert (Oth : forall i' c' q', In (i', (c', q')) (pre ++ (i, (c, p')) :: post) -> stage up (got (told ((i, (c, e)) :: l))) (ruled (told ((i, (c, e)) :: l))) (done_at ((i, (c, e)) :: l) i) c p' ->
      stage up (got (told ((i, (c, e)) :: l))) (ruled (told ((i, (c, e)) :: l))) (done_at ((i, (c, e)) :: l) i') c' q').
    { intros i' c' q' Hq Sp. apply in_mid in Hq as [E|Hq]; [injection E as -> -> ->; exact Sp|]. apply stage_cons, Ts, in_mid. now right. }
    assert (Ret : forall newer i' c' x older, (i, (c, e)) :: l = newer ++ (i', (c', EvReturn x)) :: older -> done_at older i' c' x).
    { intros [|z nw] i' c' x o E; cbn in E; injection E as E1 E2; [|subst; eapply Rs; reflexivity]. subst. inversion Ha. }
    destruct (act_real st look s s' p p' e m F M Ha) as [[Fe (m' & Am & M')]|[Fe M']].
    + assert (HG : forall u t t', got (told l) u t -> st_get u m = Some t' -> same_request t t').
      { intros u t t' Gt Gm. destruct (G u t Gt) as (s1 & C1 & Q1). destruct (proj1 (K u t' Gm)) as (s2 & C2 & Q2).
        apply (same_trans _ s1); [now apply same_sym|]. apply (same_trans _ s2); [|exact Q2]. exact (I0 u _ _ C1 C2). }
      assert (HL : forall u t, e = EvUpdate u SentRequest (Ok tt) -> st_get u m = Some t -> (progress (s_status t) <= 1)%N).
      { intros u t -> Gm. destruct (proj2 (K u t Gm)) as [Q|(j & c' & o & Hin)]; [exact Q|]. exfalso. apply in_split in Hin as (l1 & l2 & ->).
        exact (L [] i c u l1 j c' o l2 eq_refl). }
      destruct (act_stage up v (got (told l)) (ruled (told l)) (done_at l i) (done_at ((i, (c, e)) :: l) i) c p m m' p' e So B) as [Ef Sp]; auto.
      { intros t r o (c' & Hin). exact (J0 _ _ _ _ Hin). }
      { intros c' Lk. rewrite (fails_lock _ Fe) in Lk. discriminate Lk. }
      { intros j x Te Er y Ey. rewrite (succeeds_takes _ _ Fe) in Te. exists [], e, l, q, m. rewrite Er. cbn [snd]. auto. }
      assert (Sp' : stage up (got (told ((i, (c, e)) :: l))) (ruled (told ((i, (c, e)) :: l))) (done_at ((i, (c, e)) :: l) i) c p').
      { eapply stage_mono; [| | |exact Sp]; [intros u t [(c' & Hin)| ->]|intros t r o [(c' & Hin)| ->]|auto]; [exists c'; now right|exists c; now left|exists c'; now right|exists c; now left]. }
      assert (K' : forall u t, st_get u m' = Some t -> kept_of ((i, (c, e)) :: l) u t /\ early ((i, (c, e)) :: l) u t).
      { intros u t Gu. destruct Am as [m t0 k cd m' x E|m w st0 k cd m' x E|m w k cd|m w k cd m' x E|m t0 r k o].
        - rewrite (initiate_get _ _ _ _ _ u E) in Gu. destruct x as [[]|]; [|discriminate Fe].
          destruct (N.eqb_spec u (s_uuid t0)) as [->|Ne]; [|destruct (K u t Gu); split; [now apply kept_cons|now apply early_cons]]. injection Gu as <-.
          split; [exists t0; split; [split; [reflexivity|exists c; now left]|apply same_refl]|]. left.
          destruct (stage_initiate _ _ _ _ _ _ _ St) as [-> | ->]; cbn; lia.
        - destruct x as [[]|]; [|discriminate Fe]. rewrite (proj1 (update_get _ _ _ _ _ _ u E)) in Gu.
          destruct (N.eqb_spec u w) as [->|Ne]; [|destruct (K u t Gu); split; [now apply kept_cons|now apply early_cons]].
          destruct (st_get w m) as [t1|] eqn:Gm; [|discriminate Gu]. injection Gu as <-. destruct (K w t1 Gm) as [(s1 & C1 & Q1) _]. split.
          + exists s1. split; [now apply creates_cons|]. apply (same_trans _ t1); [exact Q1|]. destruct t1. repeat split.
          + destruct (stage_update _ _ _ _ _ _ _ _ St) as [->|(o & ->)]; [left; cbn; lia|right]. exists i, c, o. now left.
        - destruct (K u t Gu). split; [now apply kept_cons|now apply early_cons].
        - rewrite (proj1 (remove_get _ _ _ _ _ u So E)) in Gu. destruct x as [y|]; [|discriminate Fe]. destruct (N.eqb u w); [discriminate Gu|].
          destruct (K u t Gu). split; [now apply kept_cons|now apply early_cons].
        - destruct (K u t Gu). split; [now apply kept_cons|now apply early_cons]. }
      constructor; cbn [an_store an_tasks an_log].
      * rewrite (succeeds_takes _ _ Fe) in Ef. rewrite carried_cons. destruct (succeeds (c, e)).
        -- destruct Ef as (j & x & Er & _). exists ((c, x) :: q), m'. split; [econstructor; eauto|]. split; [exact M'|]. split; [cbn [map fst]; auto|exact K'].
        -- destruct Ef as [-> _]. exists q, m. auto.
      * intros u t (c' & [E|Hin]); [|apply kept_cons, G; now exists c']. injection E as -> ->.
        inversion Am as [| |? ? ? cd| |]; subst. unfold get_session in *. destruct cd; [discriminate|]. destruct (st_get u m') as [t1|] eqn:Gm; [|discriminate].
        match goal with E : ok_or _ _ = _ |- _ => cbn in E; injection E as -> end. apply kept_cons. exact (proj1 (K u t Gm)).
      * intros i' c' q' Hq. now apply Oth.
      * exact Ret.
    + destruct (stage_fails _ _ _ _ _ _ _ _ _ _ _ Ha Fe St) as (er & ->).
      constructor; cbn [an_store an_tasks an_log].
      * rewrite carried_cons, (fails_not _ _ Fe). exists q, m. split; [exact O|]. split; [exact M'|]. split; [exact Tq|].
        intros u t Gu. destruct (K u t Gu). split; [now apply kept_cons|now apply early_cons].
      * intros u t (c' & [E|Hin]); [injection E as -> ->; discriminate Fe|]. apply kept_cons, G. now exists c'.
      * intros i' c' q' Hq. apply Oth; [exact Hq|]. apply st_done. intros y Ey. discriminate Ey.
      * exact Ret.
  - constructor; cbn [an_store an_tasks an_log].
    + exists q, m. rewrite carried_cons. replace (succeeds (c, EvReturn r)) with false by now destruct c. split; [exact O|]. split; [exact M|]. split; [exact Tq|].
      intros u t Gu. destruct (K u t Gu). split; [now apply kept_cons|now apply early_cons].
    + intros u t (c' & [E|Hin]); [discriminate E|]. apply kept_cons, G. now exists c'.
    + intros i' c' q' Hq. apply stage_cons, Ts, in_mid. now right.
    + intros [|z nw] i' c' x o E; cbn in E; injection E as E1 E2; [|subst; eapply Rs; reflexivity]. subst.
      assert (St : stage up (got (told o)) (ruled (told o)) (done_at o i') c' (Done x)) by (apply Ts, in_mid; now left).
      remember (Done x) as d eqn:Ed. destruct St as [c'|u1 t Gs Sr|u1 r1 t Gs|u1 r1 t o1 Gs Vo|c' y Ey]; try discriminate.
      * intros y ->. exfalso. destruct c' as [b u wm|b u|u|u r1|u|u]; cbn [code] in Ed; try discriminate.
        -- unfold build_code in Ed. destruct (rb_prepare up b u wm) as [[t d]|er]; discriminate.
        -- unfold build_dc_code in Ed. destruct (rb_prepare_dc up b u) as [t|er]; discriminate.
      * injection Ed as <-. exact Ey.
  - constructor; cbn [an_store an_tasks an_log]; [exists q, m; auto|exact G| |exact Rs]. intros i' c' q' Hq. apply Ts, in_mid. now right.
  - constructor; cbn [an_store an_tasks an_log]; [|exact G|exact Ts|exact Rs].
    destruct (T_other s s' m q _ Ho M O Tq) as (q' & m' & O' & M' & Tq' & Sub). exists q', m'. split; [exact O'|]. split; [exact M'|]. split; [exact Tq'|]. intros u t Gu. apply K, Sub, Gu.
Qed.
Lemma log_back a b : any_step up S st a b -> an_log b = an_log a \/ exists z, an_log b = z :: an_log a.
Proof. intros H. destruct H; cbn [an_log]; eauto. Qed.
Lemma seq_reachable m0 y : (forall u, look m0 u = None) -> any_reachable up S st m0 y ->
  judged_by v (told (an_log y)) -> ids_apart (told (an_log y)) -> marked_in_time (an_log y) -> seq_inv y.
Proof.
  intros E R. induction R as [|a b R IH H]; intros J I L.
  - constructor; cbn [an_store an_tasks an_log]; [|intros u s (c & [])|intros ? ? ? []|intros [|? ?] ? ? ? ? X; discriminate X].
    exists [], []. split; [constructor|]. split; [split; [constructor|intros u; cbn; now rewrite E]|]. split; [exact T_none|]. intros u s X. discriminate X.
  - apply (seq_step a b H J I L). destruct (log_back _ _ H) as [Eq|(z & Eq)]; rewrite Eq in J, I, L; [now apply IH|].
    destruct (told_cons _ _ _ J I) as [J0 I0]. apply IH; [exact J0|exact I0|exact (in_time_cons _ _ L)].
Qed.
End S.

(** What happens to the store by itself. *)
Lemma expiry_other up v S (st : session_store S) look : faithful st look -> forall s s' m q l,
  ss_other st s s' -> mirrors look s m -> one_by_one up v q m -> with_expiries l (map fst q) ->
  exists q' m', one_by_one up v q' m' /\ mirrors look s' m' /\ with_expiries l (map fst q') /\ forall u t, st_get u m' = Some t -> st_get u m = Some t.
Proof.
  intros F s s' m q l Ho [So M] O W. pose proof (fa_other _ _ F _ _ Ho) as Oth.
  assert (dec : forall u, {look s' u = None} + {look s' u <> None}) by (intros u; destruct (look s' u); [now right|now left]).
  destruct (vanish_seq up v (fun u => look s' u = None) dec (map fst m) q m So O) as (q' & m' & O' & So' & G' & X & _).
  { intros u t G _. apply st_get_in in G. change u with (fst (u, t)). now apply in_map. }
  exists q', m'. split; [exact O'|]. split; [|split; [now apply X|]].
  - split; [exact So'|]. intros u. rewrite G', M. destruct (dec u) as [->|D]; [reflexivity|]. destruct (Oth u) as [->|E]; [reflexivity|contradiction].
  - intros u t. rewrite G'. destruct (dec u); [discriminate|auto].
Qed.
Lemma still_other up v S (st : session_store S) look : (forall s s', ss_other st s s' -> unchanged look s s') -> forall s s' m q (l : list call),
  ss_other st s s' -> mirrors look s m -> one_by_one up v q m -> map fst q = l ->
  exists q' m', one_by_one up v q' m' /\ mirrors look s' m' /\ map fst q' = l /\ forall u t, st_get u m' = Some t -> st_get u m = Some t.
Proof.
  intros N s s' m q l Ho [So M] O E. exists q, m. split; [exact O|]. split; [|auto]. split; [exact So|]. intros u. now rewrite M, (N _ _ Ho).
Qed.

(** C125: whatever the interleaving, with any session store that keeps sessions, lets them expire and fails as it likes: if ids are
    not shared, the validator does not depend on the status of the session and no session is marked as sent after its verdict was
    recorded, the sessions held are those left by the calls that took effect, each executed alone on the memory store, one after
    the other, in the order in which they took effect, with removals for the sessions that expired. *)
Lemma c125_sequential_pf
  : forall (url_parse : string -> option url) (v : session -> auth_response -> outcome) (S : Type) (st : session_store S)
           (look : S -> uuid -> option session) (m0 : S) (y : any_sys S),
    faithful st look -> (forall u, look m0 u = None) -> any_reachable url_parse S st m0 y ->
    judged_by v (map snd (an_log y)) -> ids_apart (map snd (an_log y)) -> marked_in_time (an_log y) ->
    exists l m, one_by_one url_parse v l m /\ with_expiries (carried_out (an_log y)) (map fst l)
      /\ forall u, st_get u m = look (an_store y) u.
Proof.
  intros up v S st look m0 y F E R J I L.
  destruct (si_seq _ _ _ _ _ _ (seq_reachable up v S st look F with_expiries expiries_none expiries_call (expiry_other up v S st look F) m0 y E R J I L)) as (q & m & O & [_ M] & W & _).
  exists q, m. auto.
Qed.

(** C125: when sessions do not expire, they are those left by exactly the calls that took effect, in that order. *)
Lemma c125_lasting_pf
  : forall (url_parse : string -> option url) (v : session -> auth_response -> outcome) (S : Type) (st : session_store S)
           (look : S -> uuid -> option session) (m0 : S) (y : any_sys S),
    faithful st look -> (forall m m', ss_other st m m' -> unchanged look m m') ->
    (forall u, look m0 u = None) -> any_reachable url_parse S st m0 y ->
    judged_by v (map snd (an_log y)) -> ids_apart (map snd (an_log y)) -> marked_in_time (an_log y) ->
    exists l m, one_by_one url_parse v l m /\ map fst l = carried_out (an_log y)
      /\ forall u, st_get u m = look (an_store y) u.
Proof.
  intros up v S st look m0 y F N E R J I L.
  assert (Tc : forall (c : call) l k, k = l -> c :: k = c :: l) by (intros c l k ->; reflexivity).
  destruct (si_seq _ _ _ _ _ _ (seq_reachable up v S st look F (fun l k => k = l) eq_refl Tc (fun s s' m q l => still_other up v S st look N s s' m q l) m0 y E R J I L)) as (q & m & O & [_ M] & W & _).
  exists q, m. auto.
Qed.

(** C125: and a call that succeeded took effect at a moment between its start and its return, and its answer is the one it gives
    when executed alone on the store that the calls before that moment, and the expiries, leave. *)
Lemma c125_answers_pf
  : forall (url_parse : string -> option url) (v : session -> auth_response -> outcome) (S : Type) (st : session_store S)
           (look : S -> uuid -> option session) (m0 : S) (y : any_sys S)
           (newer older : list (nat * (call * event))) (i : nat) (c : call) (a : answer),
    faithful st look -> (forall u, look m0 u = None) -> any_reachable url_parse S st m0 y ->
    judged_by v (map snd (an_log y)) -> ids_apart (map snd (an_log y)) -> marked_in_time (an_log y) ->
    an_log y = newer ++ (i, (c, EvReturn (Ok a))) :: older ->
    exists l1 e l2 q m, older = l1 ++ (i, (c, e)) :: l2 /\ succeeds (c, e) = true
      /\ one_by_one url_parse v q m /\ with_expiries (carried_out l2) (map fst q)
      /\ snd (run false v (code url_parse c) m) = Ok a.
Proof.
  intros up v S st look m0 y n o i c a F E R J I L El.
  pose proof (seq_reachable up v S st look F with_expiries expiries_none expiries_call (expiry_other up v S st look F) m0 y E R J I L) as Inv.
  exact (si_returns _ _ _ _ _ _ Inv n i c (Ok a) o El a eq_refl).
Qed.

Lemma times_events i c l : (forall c' e', In (i, (c', e')) l -> c' = c) -> times i l = length (filter (fun e => succeeds (c, e)) (events_of i l)).
Proof.
  intros Sc. unfold times. induction l as [|[j [c1 e1]] l IH]; [reflexivity|]. rewrite events_snoc. cbn [filter fst snd].
  destruct (Nat.eqb_spec j i) as [->|Ne]; cbn [andb]; [|apply IH; intros c' e' H; apply (Sc c' e'); now right].
  assert (c1 = c) as -> by (apply (Sc c1 e1); now left). rewrite filter_app, app_length. cbn [filter].
  rewrite <- IH by (intros c' e' H; apply (Sc c' e'); now right). destruct (succeeds (c, e1)); cbn [length]; lia.
Qed.
Lemma protocol_once up c events result : protocol up c events result ->
  length (filter (fun e => succeeds (c, e)) events) = match result with Ok _ => 1 | Err _ => 0 end.
Proof.
  destruct c as [b u wm|b u|u|u r|u|u]; cbn [protocol].
  - intros [(e & -> & (er & ->) & _)|(s & d & x & -> & _ & X)]; [reflexivity|]. destruct x as [[]|]; [now rewrite X|destruct X as (er & ->); reflexivity].
  - intros [(e & -> & (er & ->) & _)|(s & x & -> & _ & X)]; [reflexivity|]. destruct x as [[]|]; [now rewrite X|destruct X as (er & ->); reflexivity].
  - intros [(e & -> & (er & ->))|[(s & -> & N & ->)|(s & x & -> & N & X)]]; [reflexivity| |].
    + cbn. destruct (s_status s); [now destruct N|reflexivity..].
    + destruct x as [[]|]; [rewrite X|destruct X as (er & ->)]; cbn; rewrite N; reflexivity.
  - intros [(e & -> & (er & ->))|(s & o & x & -> & X)]; [reflexivity|]. destruct x as [[]|]; [now rewrite X|destruct X as (er & ->); reflexivity].
  - intros (x & -> & X). destruct x as [s|]; [now rewrite X|destruct X as (er & ->); reflexivity].
  - intros (x & -> & X). destruct x as [[]|]; [now rewrite X|destruct X as (er & ->); reflexivity].
Qed.

Lemma protocol_no_return up c events result z : protocol up c events result -> ~ In (EvReturn z) events.
Proof.
  destruct c as [b u wm|b u|u|u r|u|u]; cbn [protocol].
  - intros [(e & -> & _)|(s & d & x & -> & _)]; intros H; repeat (destruct H as [H|H]; [discriminate H|]); contradiction H.
  - intros [(e & -> & _)|(s & x & -> & _)]; intros H; repeat (destruct H as [H|H]; [discriminate H|]); contradiction H.
  - intros [(e & -> & _)|[(s & -> & _)|(s & x & -> & _)]]; intros H; repeat (destruct H as [H|H]; [discriminate H|]); contradiction H.
  - intros [(e & -> & _)|(s & o & x & -> & _)]; intros H; repeat (destruct H as [H|H]; [discriminate H|]); contradiction H.
  - intros (x & -> & _) H; repeat (destruct H as [H|H]; [discriminate H|]); contradiction H.
  - intros (x & -> & _) H; repeat (destruct H as [H|H]; [discriminate H|]); contradiction H.
Qed.

(** C125: a call takes effect at most once, exactly once when it succeeds and not at all when it fails (whatever the session store). *)
Lemma c125_once_pf
  : forall (url_parse : string -> option url) (S : Type) (st : session_store S) (m0 : S) (y : any_sys S) (i : nat) (c : call) (x : res answer),
    any_reachable url_parse S st m0 y ->
    times i (an_log y) <= 1
    /\ (In (i, (c, EvReturn x)) (an_log y) -> times i (an_log y) = match x with Ok _ => 1 | Err _ => 0 end).
Proof.
  intros up S st m0 y i c x R.
  destruct (in_dec Nat.eq_dec i (map fst (an_log y))) as [H|N].
  - apply in_map_iff in H as ([j [c0 e0]] & Ej & H). cbn in Ej. subst j.
    destruct (c116_protocol_pf up S st m0 y i c0 e0 R H) as (es & rest & r & P & D & Sc). pose proof (fun z => protocol_no_return up c0 _ r z P) as Nr.
    apply protocol_once in P. rewrite (times_events i c0 _ Sc). rewrite filter_app, app_length in P.
    assert (Fr : length (filter (fun e => succeeds (c0, e)) [EvReturn r]) = 0) by now destruct c0.
    split.
    + destruct D as [-> |[_ ->]]; [destruct r; lia|]. rewrite filter_app, app_length, Fr. destruct r; lia.
    + intros X. assert (c = c0) as -> by (eapply Sc; exact X).
      assert (Xe : In (EvReturn x) (events_of i (an_log y))) by (apply in_events; now exists c0).
      destruct D as [D|[-> D]]; rewrite D in *; [destruct (Nr x); apply in_app_iff; now left|].
      apply in_app_iff in Xe as [Xe|[Xe|[]]]; [destruct (Nr x); apply in_app_iff; now left|]. injection Xe as ->.
      rewrite filter_app, app_length, Fr. cbn [filter length] in P. lia.
  - split; [|intros X; destruct N; change i with (fst (i, (c, EvReturn x))); now apply in_map].
    replace (times i (an_log y)) with 0; [lia|]. unfold times. symmetry.
    assert (Hn : forall l, ~ In i (map fst l) -> length (filter (fun x : nat * (call * event) => Nat.eqb (fst x) i && succeeds (snd x)) l) = 0).
    { induction l as [|[j ce] l IH]; intros Hl; [reflexivity|]. cbn [filter fst snd]. destruct (Nat.eqb_spec j i) as [->|Ne]; [destruct Hl; now left|]. apply IH. intros Hi. apply Hl. now right. }
    now apply Hn.
Qed.

(** C125: a crash of the process, which ends all calls in flight, whatever they were doing, and leaves the store as it is, is one of
    the executions considered here, and so are executions that go on after a restart. *)
Lemma c125_crash_pf
  : forall (url_parse : string -> option url) (S : Type) (st : session_store S) (m0 : S) (y : any_sys S),
    crashing url_parse st m0 y -> any_reachable url_parse S st m0 y.
Proof.
  intros up S st m0 y C. induction C as [|a b C IH H|m n ts l C IH]; [apply any_init|eapply any_next; eassumption|].
  clear C. induction ts as [|[i [c p]] ts IHt]; [exact IH|]. apply IHt. eapply any_next; [exact IH|]. apply (any_drop up S st m n [] i c p ts l).
Qed.

(* ------------------------------------------------------------ the journal of PfAnyStore.v *)
Definition never (_ : session) (_ : auth_response) : outcome := OFailure "no".
Definition jlog (s : session) (d : url) : list (nat * (call * event)) :=
  [(3, (CPoll 7%N, EvReturn (Err "unknown"))); (3, (CPoll 7%N, EvGet 7%N (Err "unknown")));
   (2, (CPoll 7%N, EvReturn (Ok (AStatus (Complete (OFailure "no")))))); (2, (CPoll 7%N, EvGet 7%N (Ok (set_status s (Complete (OFailure "no"))))));
   (1, (CVerify 7%N (Jwt "x"), EvReturn (Ok ANothing))); (1, (CVerify 7%N (Jwt "x"), EvUpdate 7%N (Complete (OFailure "no")) (Ok tt)));
   (1, (CVerify 7%N (Jwt "x"), EvValidate s (Jwt "x") (OFailure "no"))); (1, (CVerify 7%N (Jwt "x"), EvGet 7%N (Ok s)));
   (0, (toy_build true, EvReturn (Ok (AUrl d)))); (0, (toy_build true, EvInitiate s (Ok tt)))].
Lemma no_marks l : (forall i c u, ~ In (i, (c, EvUpdate u SentRequest (Ok tt))) l) -> marked_in_time l.
Proof. intros N n i c u b j c' o old ->. apply (N i c u). apply in_app_iff. right. now left. Qed.
Lemma jlog_orderly s d : judged_by never (map snd (jlog s d)) /\ ids_apart (map snd (jlog s d)) /\ marked_in_time (jlog s d).
Proof.
  split; [split; [reflexivity|]|split].
  - intros c t r o H. unfold jlog in H. cbn [map snd] in H. in_log H. injection H as <- <- <- <-. reflexivity.
  - intros u t t' [_ (c & H)] [_ (c' & H')]. unfold jlog in H, H'. cbn [map snd] in H, H'. in_log H. in_log H'. injection H as _ <-. injection H' as _ <-. apply same_refl.
  - apply no_marks. intros i c u H. unfold jlog in H. in_log H.
Qed.
Example c125_sequential_ex :
  exists y, faithful journal (fun j u => last_entry u j) /\ (forall u, last_entry u [] = None)
    /\ any_reachable simple_parse _ journal [] y
    /\ judged_by never (map snd (an_log y)) /\ ids_apart (map snd (an_log y)) /\ marked_in_time (an_log y)
    /\ carried_out (an_log y) = [CPoll 7%N; CVerify 7%N (Jwt "x"); toy_build true] /\ last_entry 7%N (an_store y) = None.
Proof.
  destruct journal_run as (s & d & _ & _ & R). eexists. split; [exact journal_faithful|]. split; [reflexivity|]. split; [exact R|]. cbn [an_log an_store].
  destruct (jlog_orderly s d) as (J & I & L). split; [exact J|]. split; [exact I|]. split; [exact L|]. split; reflexivity.
Qed.
Example c125_answers_ex :
  exists y newer older, faithful journal (fun j u => last_entry u j) /\ (forall u, last_entry u [] = None)
    /\ any_reachable simple_parse _ journal [] y
    /\ judged_by never (map snd (an_log y)) /\ ids_apart (map snd (an_log y)) /\ marked_in_time (an_log y)
    /\ an_log y = newer ++ (2, (CPoll 7%N, EvReturn (Ok (AStatus (Complete (OFailure "no")))))) :: older.
Proof.
  destruct journal_run as (s & d & _ & _ & R). eexists. eexists [_; _]. eexists. split; [exact journal_faithful|]. split; [reflexivity|]. split; [exact R|]. cbn [an_log].
  destruct (jlog_orderly s d) as (J & I & L). split; [exact J|]. split; [exact I|]. split; [exact L|]. reflexivity.
Qed.
Example c125_once_ex :
  exists y, any_reachable simple_parse _ journal [] y /\ map (fun i => times i (an_log y)) [0; 1; 2; 3] = [1; 1; 1; 0].
Proof. destruct journal_run as (s & d & _ & _ & R). eexists. split; [exact R|]. reflexivity. Qed.
(** The journal without expiry. *)
Definition lasting : session_store (list (uuid * option session)) :=
  mk_ss (ss_initiate journal) (ss_update journal) (ss_get journal) (ss_remove journal) (fun _ _ => False).
Lemma lasting_faithful : faithful lasting (fun j u => last_entry u j).
Proof. destruct journal_faithful as [H1 H2 H3 H4 _]. constructor; [exact H1|exact H2|exact H3|exact H4|]. intros m m' []. Qed.
Example c125_lasting_ex :
  exists y, faithful lasting (fun j u => last_entry u j)
    /\ (forall m m', ss_other lasting m m' -> unchanged (fun j u => last_entry u j) m m') /\ (forall u, last_entry u [] = None)
    /\ any_reachable simple_parse _ lasting [] y
    /\ judged_by never (map snd (an_log y)) /\ ids_apart (map snd (an_log y)) /\ marked_in_time (an_log y)
    /\ carried_out (an_log y) = [CPoll 7%N; toy_build true].
Proof.
  destruct (toy_prepared true) as (s & d & E & U & St).
  assert (Code : code simple_parse (toy_build true) = Initiate s (fun x => Done (rmap AUrl (rmap (fun _ => d) x)))) by (unfold toy_build, code, build_code; rewrite E; reflexivity).
  set (l := [(1, (CPoll 7%N, EvReturn (Ok (AStatus (s_status s))))); (1, (CPoll 7%N, EvGet 7%N (Ok s))); (0, (toy_build true, EvReturn (Ok (AUrl d)))); (0, (toy_build true, EvInitiate s (Ok tt)))]).
  exists (mk_any [(7%N, Some s)] 2 [] l). cbn [an_log]. split; [exact lasting_faithful|]. split; [intros m m' []|]. split; [reflexivity|]. split; [|split; [|split; [|split]]].
  - unfold l. eapply any_next; [eapply any_next; [eapply any_next; [eapply any_next; [eapply any_next; [eapply any_next; [apply any_init|]|]|]|]|]|].
    + apply (any_start _ _ _ [] 0 [] [] (toy_build true)).
    + rewrite Code. apply (any_act _ _ _ _ [(7%N, Some s)] 1 [] 0 (toy_build true) _ (Done (Ok (AUrl d))) [] [] (EvInitiate s (Ok tt))).
      apply (on_initiate lasting [] [(7%N, Some s)] s (fun x => Done (rmap AUrl (rmap (fun _ => d) x))) (Ok tt)). left. cbn. rewrite U. split; [lia|auto].
    + apply (any_return _ _ _ _ _ [] 0 (toy_build true) _ []).
    + apply (any_start _ _ _ _ 1 [] _ (CPoll 7%N)).
    + eapply (any_act _ _ _ _ _ 2 [] 1 (CPoll 7%N) _ _ [] _ (EvGet 7%N (Ok s))). apply on_get. split; reflexivity.
    + apply (any_return _ _ _ _ _ [] 1 (CPoll 7%N) _ []).
  - split; [reflexivity|]. intros c t r o H. unfold l in H. cbn [map snd] in H. in_log H.
  - intros u t t' [_ (c & H)] [_ (c' & H')]. unfold l in H, H'. cbn [map snd] in H, H'. in_log H. in_log H'. injection H as _ <-. injection H' as _ <-. apply same_refl.
  - apply no_marks. intros i c u H. unfold l in H. in_log H.
  - reflexivity.
Qed.
Example c125_crash_ex :
  exists y, crashing simple_parse journal [] y /\ an_started y = 1 /\ an_tasks y = [].
Proof.
  exists (mk_any [] 1 [] []). split; [|split; reflexivity]. eapply crash_now. eapply crash_next; [apply crash_init|]. apply (any_start _ _ _ [] 0 [] [] (toy_build true)).
Qed.
