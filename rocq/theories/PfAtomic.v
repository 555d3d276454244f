From Coq Require Import Lia Sorted Permutation.
From Verif Require Import Base BaseFacts Json Url Request Metadata Dcql Response Session Client Builder Server.
From Verif Require Import Spec SpecObject SpecRequest SpecBuilder SpecSession SpecServer SpecAtomic StoreFacts PfBuilder PfSession PfServer PfHistory.

(** What is left of a call: [G]: sessions read, [V]: verdicts given, [E]: answers due. *)
Section Stage.
Variable up : string -> option url.
Inductive stage (G : uuid -> session -> Prop) (V : session -> auth_response -> outcome -> Prop) (E : call -> res answer -> Prop)
  : call -> prog answer -> Prop :=
| st_code c : stage G V E c (code up c)
| st_mark u s : G u s -> s_status s = SentRequestByReference ->
    stage G V E (CRetrieve u) (Update u SentRequest (fun x => Done (rmap AJwt (rmap (fun _ => s_jwt s) x))))
| st_judge u r s : G u s ->
    stage G V E (CVerify u r) (Validate s r (fun o => Update u (Complete o) (fun x => Done (rmap (fun _ => ANothing) x))))
| st_record u r s o : G u s -> V s r o ->
    stage G V E (CVerify u r) (Update u (Complete o) (fun x => Done (rmap (fun _ => ANothing) x)))
| st_done c x : E c x -> stage G V E c (Done x).
Lemma stage_mono (G G' : uuid -> session -> Prop) (V V' : session -> auth_response -> outcome -> Prop) (E E' : call -> res answer -> Prop) c p :
  (forall u s, G u s -> G' u s) -> (forall s r o, V s r o -> V' s r o) -> (forall c x, E c x -> E' c x) ->
  stage G V E c p -> stage G' V' E' c p.
Proof. intros HG HV HE H. destruct H; econstructor; eauto. Qed.
End Stage.

(** Writing back what is there changes nothing. *)
Lemma insert_same u s m : ssorted m -> st_get u m = Some s -> st_insert u s m = m.
Proof.
  unfold ssorted. induction 1 as [|[k v] m S IH F]; cbn [st_get st_insert]; [discriminate|].
  destruct (N.compare_spec u k) as [->|L|G].
  - rewrite N.eqb_refl. intros E. now injection E as ->.
  - destruct (N.eqb_spec u k); [lia|]. intros H. apply st_get_in in H. rewrite Forall_forall in F. specialize (F _ H). cbn in F. lia.
  - destruct (N.eqb_spec u k); [lia|]. intros H. now rewrite IH.
Qed.

(** What one action does. *)
Ltac lock := split; [reflexivity|let y := fresh in let H := fresh in intros y H; first [discriminate H|injection H as <-; split; reflexivity]].
Ltac done_now := eexists; eexists; split; [first [eassumption|reflexivity]|reflexivity].
Lemma act_stage up v (G : uuid -> session -> Prop) (V : session -> auth_response -> outcome -> Prop) (E E' : call -> res answer -> Prop) c p m m' p' e :
  ssorted m ->
  (forall s s' r, same_request s s' -> v s r = v s' r) ->
  (forall s r o, V s r o -> o = v s r) ->
  (forall u s s', G u s -> st_get u m = Some s' -> same_request s s') ->
  (forall u s, e = EvUpdate u SentRequest (Ok tt) -> st_get u m = Some s -> (progress (s_status s) <= 1)%N) ->
  (forall c, lock_held e = true -> E' c (Err "try_lock")) ->
  (forall j x, takes_effect (c, e) = true -> run false v (code up c) m = (m', j, x) -> E' c x) ->
  act m p m' p' e -> stage up G V E c p ->
  (if takes_effect (c, e) then exists j x, run false v (code up c) m = (m', j, x) /\ p' = Done x else m' = m /\ forall y, p' = Done y -> got_lock y = false /\ lock_held e = true)
  /\ stage up (fun u s => G u s \/ e = EvGet u (Ok s)) (fun s r o => V s r o \/ e = EvValidate s r o) E' c p'.
Proof.
  intros S B HV HG HL HE HR Ha St. destruct St as [c|u s Gs Sr|u r s Gs|u r s o Gs Vo|c x Ex].
  - destruct c as [b u wm|b u|u|u r|u|u]; cbn [code] in Ha, HR |- *.
    + unfold build_code in *. destruct (rb_prepare up b u wm) as [[s d]|er]; cbn [pmap run] in *; [|inversion Ha].
      inversion Ha as [? ? ? cd ? x Ei| | | | ]; subst; clear Ha. unfold initiate in Ei. destruct cd; injection Ei as <- <-; cbn [takes_effect got_lock negb String.eqb] in *.
      * split; [lock|]. apply st_done, HE; reflexivity.
      * cbn [initiate run rmap] in *. split; [done_now|]. apply st_done. eapply HR; reflexivity.
    + unfold build_dc_code in *. destruct (rb_prepare_dc up b u) as [s|er]; cbn [pmap run] in *; [|inversion Ha].
      inversion Ha as [? ? ? cd ? x Ei| | | | ]; subst; clear Ha. unfold initiate in Ei. destruct cd; injection Ei as <- <-; cbn [takes_effect got_lock negb String.eqb] in *.
      * split; [lock|]. apply st_done, HE; reflexivity.
      * cbn [initiate run rmap fst snd] in *. split; [done_now|]. apply st_done. eapply HR; reflexivity.
    + unfold retrieve_code in *. cbn [pmap run] in *. inversion Ha as [| |? ? ? cd| | ]; subst; clear Ha.
      unfold get_session in *. destruct cd; [split; [lock|apply st_done, HE; reflexivity]|].
      destruct (st_get u m') as [s|] eqn:Gs; cbn [ok_or] in *.
      * unfold status_lt in *. destruct (s_status s) as [| | |o] eqn:Sr; cbn [takes_effect pmap] in *; rewrite ?Sr in *; cbn in *;
          [|split; [done_now|apply st_done; eapply HR; reflexivity]..].
        split; [lock|]. apply st_mark; [now right|exact Sr].
      * cbn in *. split; [done_now|apply st_done; eapply HR; reflexivity].
    + unfold verify_code in *. cbn [pmap run] in *. inversion Ha as [| |? ? ? cd| | ]; subst; clear Ha.
      unfold get_session in *. destruct cd; [split; [lock|apply st_done, HE; reflexivity]|].
      destruct (st_get u m') as [s|] eqn:Gs; cbn [ok_or] in *.
      * cbn [takes_effect pmap]. split; [lock|]. apply st_judge. now right.
      * cbn in *. split; [done_now|apply st_done; eapply HR; reflexivity].
    + unfold poll_code in *. cbn [pmap run] in *. inversion Ha as [| |? ? ? cd| | ]; subst; clear Ha.
      unfold get_session in *. destruct cd; [split; [lock|apply st_done, HE; reflexivity]|].
      destruct (st_get u m') as [s|] eqn:Gs; cbn in *; (split; [done_now|apply st_done; eapply HR; reflexivity]).
    + unfold remove_code in *. cbn [pmap run] in *. inversion Ha as [| | |? ? ? cd ? x Ei| ]; subst; clear Ha.
      unfold remove_session in *. destruct cd; [injection Ei as <- <-; split; [lock|apply st_done, HE; reflexivity]|].
      destruct (st_get u m) as [s|] eqn:Gs; injection Ei as <- <-; cbn in *; (split; [done_now|apply st_done; eapply HR; reflexivity]).
  - inversion Ha as [|? ? ? ? cd ? x Ei| | | ]; subst; clear Ha. unfold update_status in Ei.
    destruct cd; [injection Ei as <- <-; split; [lock|apply st_done, HE; reflexivity]|].
    destruct (st_get u m) as [s'|] eqn:Gm; injection Ei as <- <-.
    + pose proof (HG _ _ _ Gs Gm) as Q. pose proof (HL _ _ eq_refl Gm) as P.
      assert (R : run false v (code up (CRetrieve u)) m = (st_insert u (set_status s' SentRequest) m, [], Ok (AJwt (s_jwt s)))).
      { cbn [code]. unfold retrieve_code. cbn [pmap run]. unfold get_session. rewrite Gm. cbn [ok_or].
        destruct Q as (_ & Q & _). rewrite Q. destruct s' as [u' st' j' a' d']. unfold status_lt. cbn [s_status s_jwt set_status] in *.
        destruct st'; cbn [status_cmp status_discr N.compare Pos.compare Pos.compare_cont pmap run rmap progress] in *; [|rewrite insert_same by assumption; reflexivity|lia|lia].
        unfold update_status. rewrite Gm. reflexivity. }
      cbn [takes_effect got_lock] in *. split; [done_now|]. apply st_done. exact (HR _ _ eq_refl R).
    + assert (R : run false v (code up (CRetrieve u)) m = (m, [], Err "session not found")).
      { cbn [code]. unfold retrieve_code. cbn [pmap run]. unfold get_session. rewrite Gm. reflexivity. }
      cbn in *. split; [done_now|]. apply st_done. exact (HR _ _ eq_refl R).
  - inversion Ha; subst; clear Ha. split; [lock|]. eapply st_record; [left; exact Gs|now right].
  - inversion Ha as [|? ? ? ? cd ? x Ei| | | ]; subst; clear Ha. unfold update_status in Ei.
    destruct cd; [injection Ei as <- <-; split; [lock|apply st_done, HE; reflexivity]|].
    destruct (st_get u m) as [s'|] eqn:Gm; injection Ei as <- <-.
    + pose proof (HG _ _ _ Gs Gm) as Q.
      assert (R : run false v (code up (CVerify u r)) m = (st_insert u (set_status s' (Complete o)) m, [(s', r)], Ok ANothing)).
      { cbn [code]. unfold verify_code. cbn [pmap run]. unfold get_session. rewrite Gm. cbn [ok_or pmap run].
        rewrite <- (B _ _ r Q), <- (HV _ _ _ Vo). unfold update_status. rewrite Gm. reflexivity. }
      cbn [takes_effect got_lock] in *. split; [done_now|]. apply st_done. exact (HR _ _ eq_refl R).
    + assert (R : run false v (code up (CVerify u r)) m = (m, [], Err "session not found")).
      { cbn [code]. unfold verify_code. cbn [pmap run]. unfold get_session. rewrite Gm. reflexivity. }
      cbn in *. split; [done_now|]. apply st_done. exact (HR _ _ eq_refl R).
  - inversion Ha.
Qed.

(** Conditions on a history hold of what came before too. *)
Lemma orderly_cons v x l : judged_by v (x :: l) -> ids_apart (x :: l) -> no_late_mark (x :: l) -> judged_by v l /\ ids_apart l /\ no_late_mark l.
Proof.
  intros [B J] I L. refine (conj (conj B _) (conj _ _)).
  - intros c s r o H. apply (J c s r o). now right.
  - intros u s s' H H'. apply (I u); now apply creates_cons.
  - intros n c u o s E. apply (L (x :: n) c u o s). now rewrite E.
Qed.
Lemma return_in_effect c r l : in_effect ((c, EvReturn r) :: l) = in_effect l.
Proof. unfold in_effect. cbn [filter]. now destruct c. Qed.
Lemma effect_in_effect c e l : takes_effect (c, e) = true -> in_effect ((c, e) :: l) = c :: in_effect l.
Proof. unfold in_effect. cbn [filter]. now intros ->. Qed.
Lemma no_effect c e l : takes_effect (c, e) = false -> in_effect ((c, e) :: l) = in_effect l.
Proof. unfold in_effect. cbn [filter]. now intros ->. Qed.
Definition got (l : list (call * event)) (u : uuid) (s : session) : Prop := exists c, In (c, EvGet u (Ok s)) l.
Definition ruled (l : list (call * event)) (s : session) (r : auth_response) (o : outcome) : Prop := exists c, In (c, EvValidate s r o) l.
Definition anything (_ : call) (_ : res answer) : Prop := True.

Section S.
Variable up : string -> option url.
Variable v : session -> auth_response -> outcome.

(** [act_stage] in a system. *)
Lemma system_stage m m' pre c p p' post l e (E E' : call -> res answer -> Prop) :
  reachable up (mk_sys m (pre ++ (c, p) :: post) l) ->
  judged_by v ((c, e) :: l) -> ids_apart ((c, e) :: l) -> no_late_mark ((c, e) :: l) ->
  (forall c, lock_held e = true -> E' c (Err "try_lock")) ->
  (forall j x, takes_effect (c, e) = true -> run false v (code up c) m = (m', j, x) -> E' c x) ->
  act m p m' p' e -> stage up (got l) (ruled l) E c p ->
  (if takes_effect (c, e) then exists j x, run false v (code up c) m = (m', j, x) /\ p' = Done x else m' = m /\ forall y, p' = Done y -> got_lock y = false /\ lock_held e = true)
  /\ stage up (got ((c, e) :: l)) (ruled ((c, e) :: l)) E' c p'.
Proof.
  intros R J I L HE HR Ha St. pose proof (inv_reachable _ _ R) as Inv. pose proof (proj1 (c88_linear_pf _ _ R)) as Af. cbn [sy_store sy_log] in Af.
  destruct (orderly_cons _ _ _ J I L) as ([B J0] & I0 & _).
  destruct (act_stage up v (got l) (ruled l) E E' c p m m' p' e) as [H1 H2].
  - exact (inv_sorted _ Inv).
  - exact B.
  - intros s r o (c' & H). exact (J0 _ _ _ _ H).
  - intros u s s' (c' & H) G. destruct (inv_got _ Inv _ _ _ H) as (s1 & C1 & Q1). destruct (inv_stored _ Inv _ _ G) as (s2 & C2 & Q2). cbn [sy_log] in *.
    apply (same_trans _ s1); [now apply same_sym|]. apply (same_trans _ s2); [|exact Q2]. exact (I0 u _ _ C1 C2).
  - intros u s -> G. apply (L [] c u l s eq_refl). now rewrite <- Af.
  - exact HE.
  - exact HR.
  - exact Ha.
  - exact St.
  - split; [exact H1|]. eapply stage_mono; [| | |exact H2].
    + intros u s [(c' & H)| ->]; [exists c'; now right|exists c; now left].
    + intros s r o [(c' & H)| ->]; [exists c'; now right|exists c; now left].
    + auto.
Qed.

Lemma sequential y : reachable up y -> judged_by v (sy_log y) -> ids_apart (sy_log y) -> no_late_mark (sy_log y) ->
  (exists l, one_by_one up v l (sy_store y) /\ map fst l = in_effect (sy_log y))
  /\ forall c p, In (c, p) (sy_tasks y) -> stage up (got (sy_log y)) (ruled (sy_log y)) anything c p.
Proof.
  intros R. remember (sy_log y) as l0 eqn:El0. revert l0 El0. revert R. unfold reachable. remember sys_init as a. intros H. induction H as [a|a b c H IH S]; subst; intros l0 -> J I L.
  - split; [exists []; split; [constructor|reflexivity]|intros ? ? []].
  - assert (Rb : reachable up b) by exact H. specialize (IH eq_refl _ eq_refl).
    destruct S as [m ts l c|m m' pre c p p' post l e Ha|m pre c r post l|m pre c p post l]; cbn [sy_store sy_log sy_tasks] in *.
    + destruct (IH J I L) as [Sq T]. split; [exact Sq|]. intros c' p' [E|Hp]; [injection E as <- <-; constructor|auto].
    + destruct (orderly_cons _ _ _ J I L) as (J0 & I0 & L0). destruct (IH J0 I0 L0) as [(q & Sq & Eq) T]. clear IH.
      destruct (system_stage m m' pre c p p' post l e anything anything Rb J I L) as [Ef St]; [exact (fun _ _ => Logic.I)|exact (fun _ _ _ _ => Logic.I)|exact Ha|apply T, in_mid; now left|].
      split.
      * destruct (takes_effect (c, e)) eqn:Te; [|destruct Ef as [-> _]; rewrite no_effect by exact Te; eauto]. rewrite effect_in_effect by exact Te.
        destruct Ef as (j & x & Ef & _). exists ((c, x) :: q). split; [econstructor; eauto|]. cbn [map fst]. now rewrite Eq.
      * intros c' q' Hq. apply in_mid in Hq as [E|Hq]; [injection E as -> ->; exact St|].
        eapply stage_mono; [| | |apply T, in_mid; right; exact Hq]; auto; [intros ? ? (c1 & H1)|intros ? ? ? (c1 & H1)]; exists c1; now right.
    + destruct (orderly_cons _ _ _ J I L) as (J0 & I0 & L0). destruct (IH J0 I0 L0) as [Sq T]. split; [now rewrite return_in_effect|].
      intros c' q' Hq. eapply stage_mono; [| | |apply T, in_mid; right; exact Hq]; auto; [intros ? ? (c1 & H1)|intros ? ? ? (c1 & H1)]; exists c1; now right.
    + destruct (IH J I L) as [Sq T]. split; [exact Sq|]. intros c' q' Hq. apply T, in_mid. now right.
Qed.

(** How an answer is accounted for by the history [l] since [a]. *)
Definition accounted (a : sys) (l : list (call * event)) (c : call) (x : res answer) : Prop :=
  x = Err "try_lock"
  \/ (forall m, run false v (code up c) m = (m, [], x))
  \/ exists l1 e l2 q m, l = l1 ++ (c, e) :: l2 /\ takes_effect (c, e) = true
       /\ one_by_one up v q m /\ map fst q = in_effect (l2 ++ sy_log a) /\ snd (run false v (code up c) m) = x.
Definition busy (a : sys) (c : call) : Prop := exists p, In (c, p) (sy_tasks a).
Lemma accounted_cons a l c x z : accounted a l c x -> accounted a (z :: l) c x.
Proof.
  intros [H|[H|(l1 & e & l2 & q & m & -> & H)]]; [now left|right; now left|]. right; right. exists (z :: l1), e, l2, q, m. split; [reflexivity|exact H].
Qed.
Lemma stage_done G V E c x : stage up G V E c (Done x) -> E c x \/ forall m, run false v (code up c) m = (m, [], x).
Proof.
  intros H. remember (Done x) as p eqn:Ep. destruct H; try discriminate.
  - right. intros m. rewrite Ep. reflexivity.
  - injection Ep as ->. now left.
Qed.
Lemma answered a b : reachable up a -> steps up a b -> judged_by v (sy_log b) -> ids_apart (sy_log b) -> no_late_mark (sy_log b) ->
  exists l, history a b l
  /\ (forall c p, In (c, p) (sy_tasks b) -> stage up (got (sy_log b)) (ruled (sy_log b)) (fun c x => busy a c \/ accounted a l c x) c p \/ busy a c)
  /\ forall newer c x older, l = newer ++ (c, EvReturn x) :: older -> busy a c \/ accounted a older c x.
Proof.
  intros R H. induction H as [a|a b d H IH S]; intros J I L.
  - exists []. split; [reflexivity|]. split; [|intros [|? ?] ? ? ? E; discriminate E]. intros c p Hp. right. now exists p.
  - specialize (IH R). assert (Rb : reachable up b) by (eapply steps_trans; [exact R|exact H]). unfold history in *.
    destruct S as [m ts l c|m m' pre c p p' post l e Ha|m pre c r post l|m pre c p post l]; cbn [sy_store sy_log sy_tasks] in *.
    + destruct (IH J I L) as (k & Hk & T & A). exists k. split; [exact Hk|]. split; [|exact A].
      intros c' p' [E|Hp]; [injection E as <- <-; left; constructor|auto].
    + destruct (orderly_cons _ _ _ J I L) as (J0 & I0 & L0). destruct (IH J0 I0 L0) as (k & Hk & T & A). clear IH.
      exists ((c, e) :: k). split; [now rewrite Hk|]. split.
      * intros c' q' Hq. apply in_mid in Hq as [E|Hq].
        -- injection E as -> ->. destruct (T c p) as [St|Bu]; [apply in_mid; now left| |now right]. left.
           destruct (sequential _ Rb J0 I0 L0) as [(q & Sq & Eq) _]. cbn [sy_store sy_log] in Sq, Eq.
           eapply (system_stage m m' pre c p p' post l e _ (fun c0 x => busy a c0 \/ accounted a ((c, e) :: k) c0 x) Rb J I L).
           ++ intros c1 _. right. now left.
           ++ intros j x Te Er. right. right; right. exists [], e, k, q, m. rewrite <- Hk. rewrite Er. auto.
           ++ exact Ha.
           ++ exact St.
        -- destruct (T c' q') as [St|Bu]; [apply in_mid; now right| |now right]. left.
           eapply stage_mono; [| | |exact St]; [intros ? ? (c1 & H1); exists c1; now right|intros ? ? ? (c1 & H1); exists c1; now right|].
           intros c1 x1 [Bu|Ac]; [now left|right; now apply accounted_cons].
      * intros [|z n] c' x o E; cbn in E; injection E as E1 E2; [|subst; eapply A; reflexivity]. subst. inversion Ha.
    + destruct (orderly_cons _ _ _ J I L) as (J0 & I0 & L0). destruct (IH J0 I0 L0) as (k & Hk & T & A). clear IH.
      exists ((c, EvReturn r) :: k). split; [now rewrite Hk|]. split.
      * intros c' q' Hq. destruct (T c' q') as [St|Bu]; [apply in_mid; now right| |now right]. left.
        eapply stage_mono; [| | |exact St]; [intros ? ? (c1 & H1); exists c1; now right|intros ? ? ? (c1 & H1); exists c1; now right|].
        intros c1 x1 [Bu|Ac]; [now left|right; now apply accounted_cons].
      * intros [|z n] c' x o E; cbn in E; injection E as E1 E2; [|subst; eapply A; reflexivity]. subst.
        destruct (T c' (Done x)) as [St|Bu]; [apply in_mid; now left| |now left]. apply stage_done in St as [St|St]; [exact St|].
        right. right. now left.
    + destruct (IH J I L) as (k & Hk & T & A). exists k. split; [exact Hk|]. split; [|exact A].
      intros c' p' Hp. apply T, in_mid. now right.
Qed.
End S.

(* ------------------------------------------------------------ all calls done *)
Lemma run_got_lock up v c m m' j x : run false v (code up c) m = (m', j, x) -> got_lock x = true \/ code up c = Done x.
Proof.
  destruct c as [b u wm|b u|u|u r|u|u]; cbn [code].
  - unfold build_code. destruct (rb_prepare up b u wm) as [[s d]|er]; cbn; intros E; injection E as _ _ <-; auto.
  - unfold build_dc_code. destruct (rb_prepare_dc up b u) as [s|er]; cbn; intros E; injection E as _ _ <-; auto.
  - unfold retrieve_code. cbn [pmap run]. unfold get_session. destruct (st_get u m) as [s|] eqn:G; cbn [ok_or]; [|cbn; intros E; injection E as _ _ <-; auto].
    destruct (status_lt (s_status s) SentRequest); cbn [pmap run]; [|intros E; injection E as _ _ <-; auto].
    unfold update_status. rewrite G. cbn. intros E; injection E as _ _ <-; auto.
  - unfold verify_code. cbn [pmap run]. unfold get_session. destruct (st_get u m) as [s|] eqn:G; cbn [ok_or pmap run]; [|cbn; intros E; injection E as _ _ <-; auto].
    unfold update_status. rewrite G. cbn. intros E; injection E as _ _ <-; auto.
  - unfold poll_code. cbn [pmap run]. unfold get_session. destruct (st_get u m) as [s|] eqn:G; cbn; intros E; injection E as _ _ <-; auto.
  - unfold remove_code. cbn [pmap run]. unfold remove_session. destruct (st_get u m) as [s|] eqn:G; cbn; intros E; injection E as _ _ <-; auto.
Qed.
Lemma stage_acts up G V E c p m m' p' e : act m p m' p' e -> stage up G V E c p -> forall x, code up c <> Done x.
Proof.
  intros Ha H x Ec. destruct H; try discriminate Ec.
  - rewrite Ec in Ha. inversion Ha.
  - inversion Ha.
Qed.

Definition due (cp : call * prog answer) : list (call * res answer) :=
  match snd cp with Done x => filter uncontended [(fst cp, x)] | _ => [] end.
Lemma act_due {A} m (p : prog A) m' p' e : act m p m' p' e -> forall x, p <> Done x.
Proof. intros H x E. destruct H; discriminate. Qed.
Lemma returned_cons c e l : returned ((c, e) :: l) = returned l ++ match e with EvReturn x => [(c, x)] | _ => [] end.
Proof. unfold returned. cbn [rev]. rewrite flat_map_app. cbn [flat_map fst snd]. now rewrite app_nil_r. Qed.
Lemma due_mid pre cp post : flat_map due (pre ++ cp :: post) = flat_map due pre ++ due cp ++ flat_map due post.
Proof. rewrite flat_map_app. reflexivity. Qed.

Section T.
Variable up : string -> option url.
Variable v : session -> auth_response -> outcome.
Lemma uncancelled_reachable y : uncancelled up y -> reachable up y.
Proof. induction 1 as [|a b H IH [S _]]; [apply steps_refl|]. eapply steps_snoc; [exact IH|exact S]. Qed.
Lemma arranged y : uncancelled up y -> judged_by v (sy_log y) -> ids_apart (sy_log y) -> no_late_mark (sy_log y) ->
  exists l, one_by_one up v l (sy_store y) /\ Permutation l (filter uncontended (returned (sy_log y)) ++ flat_map due (sy_tasks y)).
Proof.
  intros U. induction U as [|a b U IH [S N]]; intros J I L.
  - exists []. split; [constructor|reflexivity].
  - pose proof (uncancelled_reachable _ U) as R.
    destruct S as [m ts l c|m m' pre c p p' post l e Ha|m pre c r post l|m pre c p post l]; cbn [sy_store sy_log sy_tasks] in *.
    + destruct (IH J I L) as (q & Sq & Pq). cbn [flat_map].
      destruct (due (c, code up c)) as [|[c0 x] d] eqn:D; [exists q; auto|]. unfold due in D. cbn [snd fst] in D.
      destruct (code up c) as [r| | | | |] eqn:Ec; try discriminate D. unfold uncontended in D. cbn [filter snd] in D. destruct (got_lock r) eqn:Lk; [|discriminate D]. injection D as <- <- <-.
      exists ((c, r) :: q). split; [econstructor; [exact Sq|rewrite Ec; reflexivity]|]. cbn [app]. now apply Permutation_cons_app.
    + destruct (orderly_cons _ _ _ J I L) as (J0 & I0 & L0). destruct (IH J0 I0 L0) as (q & Sq & Pq). clear IH.
      destruct (sequential up v _ R J0 I0 L0) as [_ T]. cbn [sy_tasks sy_log] in T.
      assert (St : stage up (got l) (ruled l) anything c p) by (apply T, in_mid; now left).
      destruct (system_stage up v m m' pre c p p' post l e anything anything R J I L) as [Ef _]; [exact (fun _ _ => Logic.I)|exact (fun _ _ _ _ => Logic.I)|exact Ha|exact St|].
      assert (Rt : returned ((c, e) :: l) = returned l) by (rewrite returned_cons; destruct Ha; apply app_nil_r). rewrite Rt.
      rewrite due_mid in *. assert (D0 : due (c, p) = []) by (unfold due; cbn [snd]; destruct p as [r| | | | |]; try reflexivity; destruct (act_due _ _ _ _ _ Ha r eq_refl)).
      rewrite D0 in Pq. cbn [app] in Pq. destruct (takes_effect (c, e)).
      * destruct Ef as (j & x & Er & ->). destruct (run_got_lock _ _ _ _ _ _ _ Er) as [Lk|Ec]; [|destruct (stage_acts _ _ _ _ _ _ _ _ _ _ Ha St _ Ec)].
        exists ((c, x) :: q). split; [econstructor; eauto|]. unfold due at 2, uncontended at 2. cbn [snd fst filter]. rewrite Lk. cbn [app].
        rewrite app_assoc in *. now apply Permutation_cons_app.
      * destruct Ef as [-> Nl]. exists q. split; [exact Sq|]. assert (D1 : due (c, p') = []).
        { unfold due. cbn [snd fst]. destruct p' as [r| | | | |]; try reflexivity. unfold uncontended. cbn [filter snd]. now rewrite (proj1 (Nl r eq_refl)). }
        rewrite D1. exact Pq.
    + destruct (orderly_cons _ _ _ J I L) as (J0 & I0 & L0). destruct (IH J0 I0 L0) as (q & Sq & Pq). clear IH.
      exists q. split; [exact Sq|]. rewrite returned_cons, filter_app, flat_map_app. rewrite due_mid in Pq. unfold due in Pq at 2. cbn [snd fst] in Pq.
      rewrite Pq. rewrite <- !app_assoc. apply Permutation_app_head. apply Permutation_app_swap_app.
    + rewrite !app_length in N. cbn [length] in N. lia.
Qed.
End T.

(* ------------------------------------------------------------ wallets that answer once they have the request *)
(** The next thing done is to mark [u] as sent. *)
Definition marks {A} (u : uuid) (p : prog A) : Prop := match p with Update u' SentRequest _ => u' = u | _ => False end.
(** A session is marked only right after it was read as not yet sent. *)
Fixpoint marks_read {A} (p : prog A) : Prop :=
  match p with
  | Done _ => True
  | Initiate _ k => forall x, (forall u, ~ marks u (k x)) /\ marks_read (k x)
  | Update _ _ k => forall x, (forall u, ~ marks u (k x)) /\ marks_read (k x)
  | Remove _ k => forall x, (forall u, ~ marks u (k x)) /\ marks_read (k x)
  | Validate _ _ k => forall x, (forall u, ~ marks u (k x)) /\ marks_read (k x)
  | Get v k => forall x, (forall u, marks u (k x) -> u = v /\ exists s, x = Ok s /\ s_status s = SentRequestByReference) /\ marks_read (k x)
  end.
Lemma code_marks up c : (forall u, ~ marks u (code up c)) /\ marks_read (code up c).
Proof.
  destruct c as [b u wm|b u|u|u r|u|u]; cbn [code].
  - unfold build_code. destruct (rb_prepare up b u wm) as [[s d]|er]; cbn; auto.
  - unfold build_dc_code. destruct (rb_prepare_dc up b u) as [s|er]; cbn; auto.
  - unfold retrieve_code. cbn [pmap marks marks_read]. split; [auto|]. intros [s|er]; [|cbn; split; [intros ? []|exact I]].
    destruct (status_lt (s_status s) SentRequest) eqn:L; cbn; [|split; [intros ? []|exact I]].
    split; [intros v <-; split; [reflexivity|]; exists s; split; [reflexivity|now apply lt_sent]|auto].
  - unfold verify_code. cbn [pmap marks marks_read]. split; [auto|]. intros [s|er]; cbn; [|split; [intros ? []|exact I]]. split; [intros ? []|]. auto.
  - unfold poll_code. cbn. split; [auto|]. intros x. split; [intros ? []|exact I].
  - unfold remove_code. cbn. auto.
Qed.
Lemma act_marks {A} m (p : prog A) m' p' e : act m p m' p' e -> marks_read p ->
  marks_read p' /\ forall u, marks u p' -> m' = m /\ exists s, st_get u m = Some s /\ s_status s = SentRequestByReference.
Proof.
  intros H. destruct H as [m s k c m' x E|m v st k c m' x E|m v k c|m v k c m' x E|m s r k o]; cbn [marks_read]; intros M.
  - destruct (M x) as [N R]. split; [exact R|]. intros u Hu. destruct (N u Hu).
  - destruct (M x) as [N R]. split; [exact R|]. intros u Hu. destruct (N u Hu).
  - destruct (M (get_session c v m)) as [N R]. split; [exact R|]. intros u Hu. destruct (N u Hu) as (-> & s & G & S). split; [reflexivity|]. exists s. split; [|exact S].
    unfold get_session in G. destruct c; [discriminate G|]. destruct (st_get v m); [injection G as ->; reflexivity|discriminate G].
  - destruct (M x) as [N R]. split; [exact R|]. intros u Hu. destruct (N u Hu).
  - destruct (M o) as [N R]. split; [exact R|]. intros u Hu. destruct (N u Hu).
Qed.
(** What an action does to the progress of a session. *)
Lemma act_progress m (p : prog answer) m' p' e v : act m p m' p' e -> ssorted m -> targets v p ->
  forall u s', st_get u m' = Some s' -> (forall o, e <> EvUpdate u (Complete o) (Ok tt)) -> e <> EvUpdate u ReceivedResponse (Ok tt) ->
  (progress (s_status s') <= 1)%N \/ st_get u m = Some s'.
Proof.
  intros H S. destruct H as [m s k c m' x E|m w st k c m' x E|m w k c|m w k c m' x E|m s r k o]; cbn [targets]; intros T u s' G N N'.
  - rewrite (initiate_get _ _ _ _ _ u E) in G. destruct x as [y|]; [|now right]. destruct (N.eqb u (s_uuid s)); [|now right]. injection G as <-.
    destruct T as (_ & I & _). left. destruct I as [-> | ->]; cbn; lia.
  - rewrite (proj1 (update_get _ _ _ _ _ _ u E)) in G. destruct x as [[]|]; [|now right]. destruct (N.eqb_spec u w) as [<-|]; [|now right].
    destruct (st_get u m) as [s|]; [|discriminate G]. injection G as <-. left. destruct st as [| | |o]; cbn; try lia; [now destruct N'|now destruct (N o)].
  - now right.
  - rewrite (proj1 (remove_get _ _ _ _ _ u S E)) in G. destruct x as [y|]; [|now right]. destruct (N.eqb u w); [discriminate G|now right].
  - now right.
Qed.

Lemma in_task {A B} (t : A) (p p' : B) pre post x : In x (pre ++ (t, p') :: post) -> x = (t, p') \/ In x (pre ++ (t, p) :: post).
Proof. rewrite !in_app_iff. cbn. intuition. Qed.
Lemma fetched_marks up y : fetched_first up y -> reachable up y /\ no_late_mark (sy_log y)
  /\ (forall c p, In (c, p) (sy_tasks y) -> marks_read p)
  /\ forall c p u s, In (c, p) (sy_tasks y) -> marks u p -> st_get u (sy_store y) = Some s -> (progress (s_status s) <= 1)%N.
Proof.
  induction 1 as [|a b F (R & L & M & P) S C].
  - split; [apply steps_refl|]. split; [intros [|? ?] ? ? ? ? E; discriminate E|]. split; [intros ? ? []|intros ? ? ? ? []].
  - assert (Rb : reachable up b) by (eapply steps_snoc; [exact R|exact S]). split; [exact Rb|].
    pose proof (inv_reachable _ _ R) as Inv. pose proof (proj1 (c88_linear_pf _ _ R)) as Af.
    destruct S as [m ts l c|m m' pre c p p' post l e Ha|m pre c r post l|m pre c p post l]; cbn [sy_store sy_log sy_tasks] in *.
    + split; [exact L|]. destruct (code_marks up c) as [Cn Cm]. split.
      * intros c' p' [E|H]; [injection E as <- <-; exact Cm|eauto].
      * intros c' p' u s [E|H]; [injection E as <- <-; intros X; destruct (Cn u X)|eauto].
    + assert (Ip : In (c, p) (pre ++ (c, p) :: post)) by (apply in_mid; now left).
      destruct (inv_tasks _ Inv _ _ Ip) as [T J]. cbn [sy_log] in J.
      destruct (act_marks _ _ _ _ _ Ha (M _ _ Ip)) as [M' K]. split; [|split].
      * intros [|z n] c' u o s E; cbn in E; injection E as E1 E2; [|subst; eapply L; reflexivity]. subst. intros Au.
        apply (P c' p u s Ip); [|now rewrite Af]. inversion Ha; subst. reflexivity.
      * intros c' q' H. destruct (in_task c p p' _ _ _ H) as [E|H']; [injection E as -> ->; exact M'|eauto].
      * intros c' q' u s H Hm G. destruct (in_task c p p' _ _ _ H) as [E|H'].
        -- injection E as -> ->. destruct (K u Hm) as (-> & s0 & G0 & S0). rewrite G0 in G. injection G as <-. rewrite S0. cbn. lia.
        -- assert (Cr : c' = CRetrieve u).
           { destruct (inv_tasks _ Inv _ _ H') as [_ J']. destruct q' as [|s1 k|u1 st k|u1 k|u1 k|s1 r1 k]; try destruct Hm. destruct st; try destruct Hm.
             cbn [just] in J'. destruct J' as [[(_ & Ec & _)|(o & ? & ? & Eo & _)] _]; [congruence|discriminate Eo]. }
           subst c'. destruct (act_progress _ _ _ _ _ _ Ha (inv_sorted _ Inv) T u s G) as [Q|Q]; [| |exact Q|eauto].
           ++ intros o Ee. subst e. exact (C c u o eq_refl q' H').
           ++ intros Ee. subst e. inversion Ha; subst. cbn [just] in J. destruct J as [[(Es & _)|(o & ? & ? & Eo & _)] _]; discriminate.
    + assert (Sub : forall x, In x (pre ++ post) -> In x (pre ++ (c, Done r) :: post)) by (intros x Hx; apply in_mid; now right).
      split; [|split; eauto]. intros [|z n] c' u o s E; cbn in E; injection E as E1 E2; [discriminate|subst; eapply L; reflexivity].
    + assert (Sub : forall x, In x (pre ++ post) -> In x (pre ++ (c, p) :: post)) by (intros x Hx; apply in_mid; now right).
      split; [exact L|]. split; eauto.
Qed.

(** C122: whatever the interleaving, if ids are not shared, the validator does not depend on the status of the session and no
    request is marked as sent after its response was judged, the store is the one left by the calls that took effect, each
    executed alone, one after the other, in the order in which they took effect. *)
Lemma c122_sequential_pf
  : forall (url_parse : string -> option url) (v : session -> auth_response -> outcome) (y : sys),
    reachable url_parse y -> judged_by v (sy_log y) -> ids_apart (sy_log y) -> no_late_mark (sy_log y) ->
    exists l, one_by_one url_parse v l (sy_store y) /\ map fst l = in_effect (sy_log y).
Proof. intros up v y R J I L. exact (proj1 (sequential up v y R J I L)). Qed.

(** C122: and each call gave the answer it gives in that sequence: unless it found the lock held, or fails whatever the store,
    it took effect at a moment between its start and its return, and its answer is the one it gives when executed alone on
    the store that the calls before that moment leave. *)
Lemma c122_answers_pf
  : forall (url_parse : string -> option url) (v : session -> auth_response -> outcome) (a b : sys) (c : call) (x : res answer)
           (newer older : list (call * event)),
    reachable url_parse a -> steps url_parse a b ->
    judged_by v (sy_log b) -> ids_apart (sy_log b) -> no_late_mark (sy_log b) ->
    (forall p, ~ In (c, p) (sy_tasks a)) ->
    sy_log b = newer ++ (c, EvReturn x) :: older ++ sy_log a ->
    x = Err "try_lock"
    \/ (forall m, run false v (code url_parse c) m = (m, [], x))
    \/ exists l1 e l2 q m, older = l1 ++ (c, e) :: l2 /\ takes_effect (c, e) = true
         /\ one_by_one url_parse v q m /\ map fst q = in_effect (l2 ++ sy_log a) /\ snd (run false v (code url_parse c) m) = x.
Proof.
  intros up v a b c x n o R H J I L N E. destruct (answered up v a b R H J I L) as (l & Hl & _ & A). unfold history in Hl.
  assert (El : l = n ++ (c, EvReturn x) :: o).
  { apply (app_inv_tail (sy_log a)). rewrite <- Hl, E, <- app_assoc. reflexivity. }
  destruct (A n c x o El) as [(p & B)|Ac]; [destruct (N p B)|exact Ac].
Qed.

(** C122: when no call was cancelled and all have returned, the calls with their answers, those apart that found the lock held,
    can be arranged in an order in which, executed alone one after the other, they give these very answers and leave this very
    store. *)
Lemma c122_arranged_pf
  : forall (url_parse : string -> option url) (v : session -> auth_response -> outcome) (y : sys),
    uncancelled url_parse y -> sy_tasks y = [] ->
    judged_by v (sy_log y) -> ids_apart (sy_log y) -> no_late_mark (sy_log y) ->
    exists l, one_by_one url_parse v l (sy_store y) /\ Permutation l (filter uncontended (returned (sy_log y))).
Proof.
  intros up v y U T J I L. destruct (arranged up v y U J I L) as (l & O & P). exists l. split; [exact O|]. rewrite T in P. cbn [flat_map] in P. now rewrite app_nil_r in P.
Qed.

(** C122: the last condition is met when no retrieval of a request is under way while a verdict on its response is recorded; so
    calls by wallets that answer once they have the request act as if executed one at a time. *)
Lemma c122_in_time_pf
  : forall (url_parse : string -> option url) (v : session -> auth_response -> outcome) (y : sys),
    fetched_first url_parse y -> judged_by v (sy_log y) -> ids_apart (sy_log y) ->
    no_late_mark (sy_log y)
    /\ exists l, one_by_one url_parse v l (sy_store y) /\ map fst l = in_effect (sy_log y).
Proof.
  intros up v y F J I. destruct (fetched_marks up y F) as (R & L & _). split; [exact L|]. exact (proj1 (sequential up v y R J I L)).
Qed.

(* ------------------------------------------------------------ a retrieval and a response, overlapping *)
Lemma un_start up m ts l c : uncancelled up (mk_sys m ts l) -> uncancelled up (mk_sys m ((c, code up c) :: ts) l).
Proof. intros H. eapply uncancelled_step; [exact H|]. split; [apply step_start|]. left. cbn. lia. Qed.
Lemma un_act up m m' pre c p p' post l e : act m p m' p' e -> uncancelled up (mk_sys m (pre ++ (c, p) :: post) l) ->
  uncancelled up (mk_sys m' (pre ++ (c, p') :: post) ((c, e) :: l)).
Proof. intros Ha H. eapply uncancelled_step; [exact H|]. split; [now apply step_act|]. right. cbn. lia. Qed.
Lemma un_return up m pre c r post l : uncancelled up (mk_sys m (pre ++ (c, Done r) :: post) l) ->
  uncancelled up (mk_sys m (pre ++ post) ((c, EvReturn r) :: l)).
Proof. intros H. eapply uncancelled_step; [exact H|]. split; [apply step_return|]. right. cbn. lia. Qed.
Definition ob := toy_build true.
Definition ocr := CRetrieve 7%N.
Definition oresp := Jwt "response".
Definition ocv := CVerify 7%N oresp.
Definition oo := OSuccess JNull.
Definition omark (s : session) : prog answer := Update 7%N SentRequest (fun x => Done (rmap AJwt (rmap (fun _ => s_jwt s) x))).
Definition orecord : prog answer := Update 7%N (Complete oo) (fun x => Done (rmap (fun _ => ANothing) x)).
Definition olog (s : session) (d : url) : list (call * event) :=
  [(ocv, EvValidate s oresp oo); (ocv, EvGet 7%N (Ok s)); (ocr, EvGet 7%N (Ok s)); (ob, EvReturn (Ok (AUrl d))); (ob, EvInitiate s (Ok tt))].
Lemma overlap : exists s d, s_uuid s = 7%N /\ s_status s = SentRequestByReference
  /\ code simple_parse ob = Initiate s (fun x => Done (rmap AUrl (rmap (fun _ => d) x)))
  /\ uncancelled simple_parse (mk_sys [(7%N, s)] [(ocr, omark s); (ocv, orecord)] (olog s d)).
Proof.
  destruct (toy_prepared true) as (s & d & E & U & St). exists s, d. split; [exact U|]. split; [exact St|].
  assert (Ec : code simple_parse ob = Initiate s (fun x => Done (rmap AUrl (rmap (fun _ => d) x)))).
  { unfold ob, toy_build, code, build_code. rewrite E. reflexivity. }
  split; [exact Ec|].
  assert (U0 : uncancelled simple_parse (mk_sys [(7%N, s)] [] [(ob, EvReturn (Ok (AUrl d))); (ob, EvInitiate s (Ok tt))])).
  { apply (un_return _ _ [] ob (Ok (AUrl d)) []).
    apply (un_act _ [] [(7%N, s)] [] ob (Initiate s (fun x => Done (rmap AUrl (rmap (fun _ => d) x)))) (Done (Ok (AUrl d))) []).
    - apply (act_initiate [] s (fun x => Done (rmap AUrl (rmap (fun _ => d) x))) false _ (Ok tt)). cbn [initiate]. rewrite U. reflexivity.
    - cbn [app]. rewrite <- Ec. apply un_start, uncancelled_init. }
  assert (G : get_session false 7%N [(7%N, s)] = Ok s) by reflexivity.
  unfold olog. apply (un_act _ [(7%N, s)] [(7%N, s)] [(ocr, omark s)] ocv (Validate s oresp (fun o => Update 7%N (Complete o) (fun x => Done (rmap (fun _ => ANothing) x)))) orecord []).
  { exact (act_validate [(7%N, s)] s oresp (fun o => Update 7%N (Complete o) (fun x => Done (rmap (fun _ => ANothing) x))) oo). }
  apply (un_act _ [(7%N, s)] [(7%N, s)] [(ocr, omark s)] ocv (code simple_parse ocv) _ []).
  { unfold code, ocv, verify_code. cbn [pmap]. rewrite <- G.
    exact (act_get [(7%N, s)] 7%N (fun x => pmap (fun _ => ANothing) (match x with Err e => Done (Err e) | Ok s => Validate s oresp (fun o => Update 7%N (Complete o) (fun x => Done x)) end)) false). }
  apply (un_act _ [(7%N, s)] [(7%N, s)] [] ocr (code simple_parse ocr) (omark s) [(ocv, code simple_parse ocv)]).
  { unfold code, ocr, retrieve_code. cbn [pmap]. rewrite <- G.
    assert (E1 : omark s = (fun x => pmap AJwt (match x with Err e => Done (Err e) | Ok s => if status_lt (s_status s) SentRequest then Update 7%N SentRequest (fun x => Done (rmap (fun _ : unit => s_jwt s) x)) else Done (Ok (s_jwt s)) end)) (get_session false 7%N [(7%N, s)])).
    { rewrite G, St. reflexivity. }
    rewrite E1. exact (act_get [(7%N, s)] 7%N (fun x => pmap AJwt (match x with Err e => Done (Err e) | Ok s => if status_lt (s_status s) SentRequest then Update 7%N SentRequest (fun x => Done (rmap (fun _ : unit => s_jwt s) x)) else Done (Ok (s_jwt s)) end)) false). }
  cbn [app]. apply un_start, un_start. exact U0.
Qed.
(** The mark before the verdict. *)
Definition in_time (s : session) (d : url) : list (call * event) :=
  (ocr, EvReturn (Ok (AJwt (s_jwt s)))) :: (ocv, EvReturn (Ok ANothing)) :: (ocv, EvUpdate 7%N (Complete oo) (Ok tt)) :: (ocr, EvUpdate 7%N SentRequest (Ok tt)) :: olog s d.
Lemma in_time_uncancelled : exists s d, s_uuid s = 7%N /\ s_status s = SentRequestByReference
  /\ uncancelled simple_parse (mk_sys [(7%N, set_status (set_status s SentRequest) (Complete oo))] [] (in_time s d)).
Proof.
  destruct overlap as (s & d & U & St & _ & H). exists s, d. split; [exact U|]. split; [exact St|]. unfold in_time.
  apply (un_return _ _ [] ocr _ []). apply (un_return _ _ [(ocr, Done (Ok (AJwt (s_jwt s))))] ocv (Ok ANothing) []).
  apply (un_act _ [(7%N, set_status s SentRequest)] _ [(ocr, Done (Ok (AJwt (s_jwt s))))] ocv orecord (Done (Ok ANothing)) []).
  { exact (act_update [(7%N, set_status s SentRequest)] 7%N (Complete oo) (fun x => Done (rmap (fun _ => ANothing) x)) false _ (Ok tt) eq_refl). }
  apply (un_act _ [(7%N, s)] _ [] ocr (omark s) (Done (Ok (AJwt (s_jwt s)))) [(ocv, orecord)]).
  { exact (act_update [(7%N, s)] 7%N SentRequest (fun x => Done (rmap AJwt (rmap (fun _ => s_jwt s) x))) false _ (Ok tt) eq_refl). }
  exact H.
Qed.
Definition always_yes (_ : session) (_ : auth_response) : outcome := oo.
Ltac in_log H := repeat (destruct H as [H|H]; [try discriminate H|]); try contradiction H.
Lemma in_time_orderly s d : s_uuid s = 7%N -> s_status s = SentRequestByReference ->
  judged_by always_yes (in_time s d) /\ ids_apart (in_time s d) /\ no_late_mark (in_time s d).
Proof.
  intros U St. split; [split|split].
  - reflexivity.
  - intros c t r o H. unfold in_time, olog in H. in_log H. injection H as <- <- <- <-. reflexivity.
  - intros u t t' [_ (c & H)] [_ (c' & H')]. unfold in_time, olog in H, H'. in_log H. in_log H'. injection H as _ <-. injection H' as _ <-. apply same_refl.
  - intros n c u o t E. unfold in_time, olog in E.
    do 3 (destruct n as [|? n]; [discriminate E|injection E as _ E]).
    destruct n as [|? n].
    + injection E as _ <- <-. cbn [after effect]. unfold aset, aempty. rewrite U. cbn. intros E. injection E as <-. rewrite St. cbn. lia.
    + injection E as _ E. do 5 (destruct n as [|? n]; [discriminate E|injection E as _ E]). destruct n; discriminate E.
Qed.
Example c122_sequential_ex :
  exists y, reachable simple_parse y /\ judged_by always_yes (sy_log y) /\ ids_apart (sy_log y) /\ no_late_mark (sy_log y)
    /\ in_effect (sy_log y) = [ocv; ocr; ob].
Proof.
  destruct in_time_uncancelled as (s & d & U & St & H). eexists. split; [exact (uncancelled_reachable _ _ H)|]. cbn [sy_log].
  destruct (in_time_orderly s d U St) as (J & I & L). split; [exact J|]. split; [exact I|]. split; [exact L|].
  unfold in_effect, in_time, olog, ocr, ocv. cbn [filter takes_effect got_lock]. rewrite St. reflexivity.
Qed.
(** Nothing recorded so far. *)
Lemma unrecorded_first up y : reachable up y -> (forall c u o, ~ In (c, EvUpdate u (Complete o) (Ok tt)) (sy_log y)) -> fetched_first up y.
Proof.
  unfold reachable. remember sys_init as i eqn:Ei. intros H. induction H as [i|i a b H IH S]; subst i; intros N; [constructor|].
  eapply fetched_step; [apply IH; [reflexivity|]|exact S|].
  - intros c u o X. apply (N c u o). destruct S; cbn [sy_log] in *; auto; now right.
  - intros c u o E. destruct (N c u o). rewrite E. now left.
Qed.
Example c122_in_time_ex :
  exists y, fetched_first simple_parse y /\ judged_by always_yes (sy_log y) /\ ids_apart (sy_log y) /\ in_effect (sy_log y) = [ocv; ocr; ob].
Proof.
  destruct overlap as (s & d & U & St & _ & H).
  set (l := (ocr, EvReturn (Ok (AJwt (s_jwt s)))) :: (ocr, EvUpdate 7%N SentRequest (Ok tt)) :: olog s d).
  exists (mk_sys [(7%N, set_status (set_status s SentRequest) (Complete oo))] [(ocv, Done (Ok ANothing))] ((ocv, EvUpdate 7%N (Complete oo) (Ok tt)) :: l)).
  cbn [sy_log]. split; [|split; [|split]].
  - assert (R : fetched_first simple_parse (mk_sys [(7%N, set_status s SentRequest)] [(ocv, orecord)] l)).
    { apply unrecorded_first; [|intros c u o X; unfold l, olog in X; cbn [sy_log] in X; in_log X]. apply uncancelled_reachable. unfold l.
      apply (un_return _ _ [] ocr (Ok (AJwt (s_jwt s))) [(ocv, orecord)]).
      apply (un_act _ [(7%N, s)] _ [] ocr (omark s) (Done (Ok (AJwt (s_jwt s)))) [(ocv, orecord)]); [|exact H].
      exact (act_update [(7%N, s)] 7%N SentRequest (fun x => Done (rmap AJwt (rmap (fun _ => s_jwt s) x))) false _ (Ok tt) eq_refl). }
    eapply fetched_step; [exact R| |].
    + apply (step_act simple_parse [(7%N, set_status s SentRequest)] _ [] ocv orecord (Done (Ok ANothing)) []).
      exact (act_update [(7%N, set_status s SentRequest)] 7%N (Complete oo) (fun x => Done (rmap (fun _ => ANothing) x)) false _ (Ok tt) eq_refl).
    + intros c u o _ p [E|[]]. discriminate E.
  - split; [reflexivity|]. intros c t r o X. unfold l, olog in X. in_log X. injection X as <- <- <- <-. reflexivity.
  - intros u t t' [_ (c & X)] [_ (c' & X')]. unfold l, olog in X, X'. in_log X. in_log X'. injection X as _ <-. injection X' as _ <-. apply same_refl.
  - unfold in_effect, l, olog, ocr, ocv. cbn [filter takes_effect got_lock]. rewrite St. reflexivity.
Qed.
Example c122_answers_ex :
  exists b newer older, reachable simple_parse sys_init /\ steps simple_parse sys_init b
    /\ judged_by always_yes (sy_log b) /\ ids_apart (sy_log b) /\ no_late_mark (sy_log b)
    /\ (forall p, ~ In (ocv, p) (sy_tasks sys_init))
    /\ sy_log b = newer ++ (ocv, EvReturn (Ok ANothing)) :: older ++ sy_log sys_init
    /\ In (ocr, EvUpdate 7%N SentRequest (Ok tt)) older.
Proof.
  destruct in_time_uncancelled as (s & d & U & St & H). eexists. exists [(ocr, EvReturn (Ok (AJwt (s_jwt s))))]. eexists.
  split; [apply steps_refl|]. split; [exact (uncancelled_reachable _ _ H)|]. cbn [sy_log].
  destruct (in_time_orderly s d U St) as (J & I & L). split; [exact J|]. split; [exact I|]. split; [exact L|].
  split; [intros p []|]. split; [cbn [sy_log sys_init]; rewrite app_nil_r; reflexivity|]. cbn. auto.
Qed.
Example c122_arranged_ex :
  exists y, uncancelled simple_parse y /\ sy_tasks y = [] /\ judged_by always_yes (sy_log y) /\ ids_apart (sy_log y) /\ no_late_mark (sy_log y)
    /\ length (filter uncontended (returned (sy_log y))) = 3.
Proof.
  destruct in_time_uncancelled as (s & d & U & St & H). eexists. split; [exact H|]. split; [reflexivity|]. cbn [sy_log].
  destruct (in_time_orderly s d U St) as (J & I & L). split; [exact J|]. split; [exact I|]. split; [exact L|]. reflexivity.
Qed.

(** The mark after the verdict. *)
Definition too_late (s : session) (d : url) : list (call * event) :=
  (ocr, EvReturn (Ok (AJwt (s_jwt s)))) :: (ocv, EvReturn (Ok ANothing)) :: (ocr, EvUpdate 7%N SentRequest (Ok tt)) :: (ocv, EvUpdate 7%N (Complete oo) (Ok tt)) :: olog s d.
Lemma perm3 {A} (l : list A) a b c : Permutation l [a; b; c] ->
  In l [[a; b; c]; [a; c; b]; [b; a; c]; [c; a; b]; [b; c; a]; [c; b; a]].
Proof.
  intros P. destruct (Permutation_vs_cons_inv P) as (l1 & l2 & ->). apply Permutation_sym, Permutation_cons_app_inv, Permutation_length_2_inv in P.
  destruct l1 as [|x l1]; [cbn in P; destruct P as [-> | ->]; cbn; auto|].
  destruct l1 as [|y l1]; [cbn in P; destruct P as [P|P]; injection P as -> ->; cbn; auto 6|].
  destruct l1 as [|z l1]; [|destruct P as [P|P]; discriminate P]. destruct l2; [|destruct P as [P|P]; discriminate P].
  cbn in P. destruct P as [P|P]; injection P as -> ->; cbn; auto 8.
Qed.
Lemma run_ocv_none x m' j : run false always_yes (code simple_parse ocv) [] = (m', j, x) -> x = Err "session not found".
Proof. cbn. intros E. now injection E as _ _ <-. Qed.
Lemma run_ocr_none x m' j : run false always_yes (code simple_parse ocr) [] = (m', j, x) -> x = Err "session not found".
Proof. cbn. intros E. now injection E as _ _ <-. Qed.

(** C122: the last condition is needed: when a retrieval that read a session before the response was judged marks it as sent
    afterwards, no order of the three calls, executed alone one after the other with these answers, leaves this store. *)
Lemma c122_late_refuted_pf
  : exists (url_parse : string -> option url) (v : session -> auth_response -> outcome) (y : sys),
    uncancelled url_parse y /\ sy_tasks y = [] /\ judged_by v (sy_log y) /\ ids_apart (sy_log y)
    /\ forall l, Permutation l (filter uncontended (returned (sy_log y))) -> ~ one_by_one url_parse v l (sy_store y).
Proof.
  destruct overlap as (s & d & U & St & Ec & H).
  exists simple_parse, always_yes, (mk_sys [(7%N, set_status (set_status s (Complete oo)) SentRequest)] [] (too_late s d)). cbn [sy_store sy_tasks sy_log].
  split; [|split; [reflexivity|split; [|split]]].
  - unfold too_late. apply (un_return _ _ [] ocr _ []). apply (un_return _ _ [(ocr, Done (Ok (AJwt (s_jwt s))))] ocv (Ok ANothing) []).
    apply (un_act _ [(7%N, set_status s (Complete oo))] _ [] ocr (omark s) (Done (Ok (AJwt (s_jwt s)))) [(ocv, Done (Ok ANothing))]).
    { exact (act_update [(7%N, set_status s (Complete oo))] 7%N SentRequest (fun x => Done (rmap AJwt (rmap (fun _ => s_jwt s) x))) false _ (Ok tt) eq_refl). }
    apply (un_act _ [(7%N, s)] _ [(ocr, omark s)] ocv orecord (Done (Ok ANothing)) []).
    { exact (act_update [(7%N, s)] 7%N (Complete oo) (fun x => Done (rmap (fun _ => ANothing) x)) false _ (Ok tt) eq_refl). }
    exact H.
  - split; [reflexivity|]. intros c t r o Hi. unfold too_late, olog in Hi. in_log Hi. injection Hi as <- <- <- <-. reflexivity.
  - intros u t t' [_ (c & Hi)] [_ (c' & Hi')]. unfold too_late, olog in Hi, Hi'. in_log Hi. in_log Hi'. injection Hi as _ <-. injection Hi' as _ <-. apply same_refl.
  - intros l P. change (filter uncontended (returned (too_late s d))) with [(ob, Ok (AUrl d)); (ocv, Ok ANothing); (ocr, Ok (AJwt (s_jwt s)))] in P.
    apply perm3 in P.
    assert (Rb : run false always_yes (code simple_parse ob) [] = ([(7%N, s)], [], Ok (AUrl d))).
    { rewrite Ec. cbn [run initiate rmap st_insert]. now rewrite U. }
    intros O. destruct P as [<-|[<-|[<-|[<-|[<-|[<-|[]]]]]]].
    + inversion O as [|? m2 ? ? ? ? O2 R2]; subst. inversion O2 as [|? m1 ? ? ? ? O1 R1]; subst. inversion O1 as [|? m0 ? ? ? ? O0 R0]; subst. inversion O0; subst.
      apply run_ocr_none in R0. discriminate R0.
    + inversion O as [|? m2 ? ? ? ? O2 R2]; subst. inversion O2 as [|? m1 ? ? ? ? O1 R1]; subst. inversion O1 as [|? m0 ? ? ? ? O0 R0]; subst. inversion O0; subst.
      apply run_ocv_none in R0. discriminate R0.
    + inversion O as [|? m2 ? ? ? ? O2 R2]; subst. inversion O2 as [|? m1 ? ? ? ? O1 R1]; subst. inversion O1 as [|? m0 ? ? ? ? O0 R0]; subst. inversion O0; subst.
      apply run_ocr_none in R0. discriminate R0.
    + inversion O as [|? m2 ? ? ? ? O2 R2]; subst. inversion O2 as [|? m1 ? ? ? ? O1 R1]; subst. inversion O1 as [|? m0 ? ? ? ? O0 R0]; subst. inversion O0; subst.
      apply run_ocv_none in R0. discriminate R0.
    + inversion O as [|? m2 ? ? ? ? O2 R2]; subst. inversion O2 as [|? m1 ? ? ? ? O1 R1]; subst. inversion O1 as [|? m0 ? ? ? ? O0 R0]; subst. inversion O0; subst.
      rewrite Rb in R0. injection R0 as <- <-. cbn in R1. unfold status_lt in R1. rewrite St in R1. cbn in R1. injection R1 as <- <-.
      cbn in R2. discriminate R2.
    + inversion O as [|? m2 ? ? ? ? O2 R2]; subst. inversion O2 as [|? m1 ? ? ? ? O1 R1]; subst. inversion O1 as [|? m0 ? ? ? ? O0 R0]; subst. inversion O0; subst.
      rewrite Rb in R0. injection R0 as <- <-. cbn in R1. injection R1 as <- <-. cbn in R2. discriminate R2.
Qed.
