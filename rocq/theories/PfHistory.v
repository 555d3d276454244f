From Coq Require Import Lia Permutation.
From Verif Require Import Base BaseFacts Json Url Params Request Metadata Dcql Response Session Client Builder Server.
From Verif Require Import Spec SpecObject SpecRequest SpecBuilder SpecSession SpecServer StoreFacts PfBuilder PfSession PfServer.

(* --------------------------------------------------------------------- C88 *)
Lemma act_effect {A} m (p : prog A) m' p' e f : ssorted m -> (forall u, st_get u m = f u) -> act m p m' p' e ->
  (forall u, st_get u m' = effect e f u) /\ explained e f.
Proof.
  intros S R H. destruct H as [m s k c m' x E|m v st k c m' x E|m v k c|m v k c m' x E|m s r k o]; cbn [effect explained].
  - split.
    + intros u. rewrite (initiate_get _ _ _ _ _ u E). unfold aset. destruct x; rewrite R; reflexivity.
    + unfold initiate in E. destruct c; injection E as <- <-; [now left|now right].
  - split.
    + intros u. destruct (update_get _ _ _ _ _ _ u E) as [-> X]. destruct x as [[]|]; [|apply R]. destruct (X eq_refl) as (s & Hs).
      cbn [apply_abs fst]. rewrite <- R, Hs. cbn [fst option_map]. unfold aset, set_status. destruct (N.eqb u v); [reflexivity|apply R].
    + unfold update_status in E. destruct c; [injection E as <- <-; now left|]. right. cbn [apply_abs snd]. rewrite <- R.
      destruct (st_get v m); injection E as <- <-; reflexivity.
  - split; [exact R|]. unfold get_session. destruct c; [now left|]. right. cbn. rewrite <- R. destruct (st_get v m); reflexivity.
  - split.
    + intros u. destruct (remove_get _ _ _ _ _ u S E) as [-> _]. unfold aset. destruct x; rewrite R; reflexivity.
    + unfold remove_session in E. destruct c; [injection E as <- <-; now left|]. right. cbn [apply_abs snd]. rewrite <- R.
      destruct (st_get v m); injection E as <- <-; reflexivity.
  - split; [exact R|exact I].
Qed.

(** C88: at any moment of any interleaving, the store holds what the operations recorded in the history so far, one
    after the other, make of an empty map, and every operation gave the result that the map gives at its place in
    the history, or found the lock held and did nothing. *)
Lemma c88_linear_pf
  : forall (url_parse : string -> option url) (y : sys),
    reachable url_parse y ->
    (forall u, st_get u (sy_store y) = after (sy_log y) u)
    /\ forall newer c e older, sy_log y = newer ++ (c, e) :: older -> explained e (after older).
Proof.
  intros up y. unfold reachable. remember sys_init as a. intros H. induction H as [a|a b c H IH S]; subst.
  - split; [reflexivity|]. intros [|n l] c e o E; discriminate E.
  - specialize (IH eq_refl). assert (I : inv b) by now apply (inv_reachable up). destruct IH as [R X].
    destruct S as [m ts l c|m m' pre c p p' post l e Ha|m pre c r post l|m pre c p post l]; cbn [sy_store sy_log] in *; try (split; assumption).
    + destruct (act_effect _ _ _ _ _ _ (inv_sorted _ I) R Ha) as [R' Xe]. split; [exact R'|].
      intros n c' e' o E. destruct n as [|n0 n]; cbn in E.
      * injection E as <- <- <-. exact Xe.
      * injection E as <- E. eapply X, E.
    + split; [exact R|]. intros n c' e' o E. destruct n as [|n0 n]; cbn in E.
      * injection E as <- <- <-. exact Logic.I.
      * injection E as <- E. eapply X, E.
Qed.
Example c88_linear_ex :
  exists y s, reachable simple_parse y /\ after (sy_log y) 7%N = Some s /\ s_status s = Complete (OFailure "no").
Proof.
  destruct c39_outcome_ex as (y & s & R & G & E). exists y, s. split; [exact R|]. split; [|exact E].
  now rewrite <- (proj1 (c88_linear_pf _ y R)).
Qed.

Lemma log_grows up a b : steps up a b -> exists l, sy_log b = l ++ sy_log a.
Proof.
  induction 1 as [a|a b c H [l IH] S]; [now exists []|]. destruct S; cbn in *; [now exists l| | |now exists l].
  - exists ((c, e) :: l). cbn. now rewrite IH.
  - exists ((c, EvReturn r) :: l). cbn. now rewrite IH.
Qed.
(** C88: a poll returns the status, and a retrieve the JWT, that the session had at a moment during the call, namely
    where the history records the read. *)
Lemma c88_answers_pf
  : forall (url_parse : string -> option url) (y : sys) (u : uuid),
    reachable url_parse y ->
    (forall newer older st, sy_log y = newer ++ (CPoll u, EvReturn (Ok (AStatus st))) :: older ->
       exists between before s, older = between ++ (CPoll u, EvGet u (Ok s)) :: before
         /\ after before u = Some s /\ s_status s = st)
    /\ (forall newer older jwt, sy_log y = newer ++ (CRetrieve u, EvReturn (Ok (AJwt jwt))) :: older ->
       exists between before s, older = between ++ (CRetrieve u, EvGet u (Ok s)) :: before
         /\ after before u = Some s /\ s_jwt s = jwt).
Proof.
  intros up y u R0. pose proof (proj2 (c88_linear_pf up y R0)) as X.
  assert (G : forall newer older c r, sy_log y = newer ++ (c, EvReturn r) :: older -> just c older (Done r)).
  { clear u X. revert R0. unfold reachable. remember sys_init as a. intros H. induction H as [a|a b c H IH S]; subst; [intros [|] ? ? ? E; discriminate E|].
    specialize (IH eq_refl). assert (I : inv b) by now apply (inv_reachable up). intros n o c' r' E.
    destruct S as [m ts l c|m m' pre c p p' post l e Ha|m pre c r post l|m pre c p post l]; cbn [sy_log] in *; try (eapply IH; eassumption).
    - destruct n as [|n0 n]; cbn in E; [|injection E as <- E; eapply IH; eassumption]. injection E as <- -> <-. inversion Ha.
    - destruct n as [|n0 n]; cbn in E; [|injection E as <- E; eapply IH; eassumption]. injection E as <- <- <-.
      apply (inv_tasks _ I). cbn. apply in_mid. auto. }
  split; intros n o v E.
  - destruct (G _ _ _ _ E) as (s0 & H & E0). cbn in H. apply in_split in H as (l1 & l2 & ->). exists l1, l2, s0. split; [reflexivity|]. split; [|exact E0].
    specialize (X (n ++ (CPoll u, EvReturn (Ok (AStatus v))) :: l1) (CPoll u) (EvGet u (Ok s0)) l2). rewrite <- app_assoc in X. cbn [app] in X. specialize (X E).
    cbn in X. destruct X as [X|X]; [discriminate|]. destruct (after l2 u); congruence.
  - destruct (G _ _ _ _ E) as (s0 & H & E0). cbn in H. apply in_split in H as (l1 & l2 & ->). exists l1, l2, s0. split; [reflexivity|]. split; [|exact E0].
    specialize (X (n ++ (CRetrieve u, EvReturn (Ok (AJwt v))) :: l1) (CRetrieve u) (EvGet u (Ok s0)) l2). rewrite <- app_assoc in X. cbn [app] in X. specialize (X E).
    cbn in X. destruct X as [X|X]; [discriminate|]. destruct (after l2 u); congruence.
Qed.
Example c88_answers_ex :
  (exists y, reachable simple_parse y /\ In (CPoll 7%N, EvReturn (Ok (AStatus (Complete (OFailure "no"))))) (sy_log y))
  /\ exists y jwt, reachable simple_parse y /\ In (CRetrieve 7%N, EvReturn (Ok (AJwt jwt))) (sy_log y).
Proof. exact (conj c39_polled_ex c37_retrieved_ex). Qed.

(* --------------------------------------------------------------------- C89 *)
(** At most [n] steps remain, the return included. *)
Fixpoint within {A} (n : nat) (p : prog A) : Prop :=
  match n with
  | O => False
  | S n =>
      match p with
      | Done _ => True
      | Initiate _ k | Update _ _ k | Remove _ k => forall x, within n (k x)
      | Get _ k => forall x, within n (k x)
      | Validate _ _ k => forall o, within n (k o)
      end
  end.
Lemma within_act {A} m (p : prog A) m' p' e n : act m p m' p' e -> within n p -> exists k, n = S k /\ within k p'.
Proof. intros H W. destruct n as [|n]; [destruct W|]. exists n. split; [reflexivity|]. destruct H; apply W. Qed.
Lemma within_code up c : within 4 (code up c).
Proof.
  destruct c as [b u wm|b u|u|u r|u|u]; cbn [code].
  - unfold build_code. destruct (rb_prepare up b u wm) as [[s d]|e]; cbn; auto.
  - unfold build_dc_code. destruct (rb_prepare_dc up b u) as [s|e]; cbn; auto.
  - intros [s|e]; cbn; auto. destruct (status_lt (s_status s) SentRequest); cbn; auto.
  - intros [s|e]; cbn; auto.
  - cbn. auto.
  - cbn. auto.
Qed.
Definition bounded (ns : list nat) (ts : list (call * prog answer)) : Prop := Forall2 (fun n t => within n (snd t)) ns ts.
Definition total (ns : list nat) : nat := fold_right plus 0 ns.
Lemma total_app a b : total (a ++ b) = total a + total b.
Proof. unfold total. induction a as [|x a IH]; cbn; [reflexivity|]. rewrite IH. lia. Qed.
Lemma reachable_bounded up y : reachable up y -> Forall (fun t => within 4 (snd t)) (sy_tasks y).
Proof.
  unfold reachable. remember sys_init as a. intros H. induction H as [a|a b c H IH S]; subst; [constructor|]. specialize (IH eq_refl).
  destruct S as [m ts l c|m m' pre c p p' post l e Ha|m pre c r post l|m pre c p post l]; cbn [sy_tasks] in *.
  - constructor; [apply within_code|exact IH].
  - apply Forall_app in IH as [I1 I2]. inversion I2 as [|x xs I3 I4]; subst. apply Forall_app. split; [exact I1|]. constructor; [|exact I4]. cbn [snd] in *.
    destruct (within_act _ _ _ _ _ 4 Ha I3) as (k & [= <-] & W). clear -W.
    assert (L : forall A n (q : prog A), within n q -> within (S n) q).
    { intros A n. induction n as [|n IHn]; intros q Wq; [destruct Wq|]. destruct q; cbn; auto; intros x; apply IHn, Wq. }
    exact (L _ _ _ W).
  - apply Forall_app in IH as [I1 I2]. inversion I2; subst. now apply Forall_app.
  - apply Forall_app in IH as [I1 I2]. inversion I2; subst. now apply Forall_app.
Qed.
Lemma bounded_step up a b ns : step up a b -> length (sy_tasks b) <= length (sy_tasks a) -> bounded ns (sy_tasks a) ->
  exists ns', bounded ns' (sy_tasks b) /\ total ns' < total ns.
Proof.
  intros S L B.
  assert (P : forall m pre c (p : prog answer) post, bounded m (pre ++ (c, p) :: post) ->
     exists n1 n n2, m = n1 ++ n :: n2 /\ bounded n1 pre /\ within n p /\ bounded n2 post).
  { intros m pre c p post F. apply Forall2_app_inv_r in F as (n1 & n2 & F1 & F2 & ->). inversion F2 as [|n t n3 ts W F3]; subst. exists n1, n, n3. auto. }
  assert (Z : forall (p : prog answer) n, within n p -> 0 < n) by (intros p [|n] W; [destruct W|lia]).
  destruct S as [m ts l c|m m' pre c p p' post l e Ha|m pre c r post l|m pre c p post l]; cbn [sy_tasks] in *.
  - cbn in L. lia.
  - destruct (P _ _ _ _ _ B) as (n1 & n & n2 & -> & F1 & W & F2). destruct (within_act _ _ _ _ _ _ Ha W) as (k & -> & W').
    exists (n1 ++ k :: n2). split; [apply Forall2_app; [exact F1|now constructor]|]. rewrite !total_app. cbn. lia.
  - destruct (P _ _ _ _ _ B) as (n1 & n & n2 & -> & F1 & W & F2). exists (n1 ++ n2). split; [now apply Forall2_app|].
    rewrite !total_app. cbn. specialize (Z _ _ W). unfold total in *. lia.
  - destruct (P _ _ _ _ _ B) as (n1 & n & n2 & -> & F1 & W & F2). exists (n1 ++ n2). split; [now apply Forall2_app|].
    rewrite !total_app. cbn. specialize (Z _ _ W). unfold total in *. lia.
Qed.
(** C89: every execution in which no new call starts ends, after at most four steps (the return included) for every
    call in flight, however the calls are interleaved and whatever they find. *)
Lemma c89_ends_pf
  : forall (url_parse : string -> option url) (a b : sys) (n : nat),
    reachable url_parse a -> quiet url_parse a b n -> n <= 4 * length (sy_tasks a).
Proof.
  intros up a b n R Q.
  assert (B : exists ns, bounded ns (sy_tasks b) /\ total ns + n <= 4 * length (sy_tasks a)).
  { induction Q as [a|a b c n Q IH S L].
    - exists (repeat 4 (length (sy_tasks a))). split.
      + pose proof (reachable_bounded _ _ R) as F. unfold bounded. clear R. induction F as [|t ts W F IH]; cbn [length repeat]; constructor; auto.
      + clear R. generalize (sy_tasks a). intros ts. induction ts as [|t ts IH]; [cbn; lia|]. cbn [length repeat total fold_right]. fold (total (repeat 4 (length ts))). lia.
    - destruct (IH R) as (ns & B & T). destruct (bounded_step _ _ _ _ S L B) as (ns' & B' & T'). exists ns'. split; [exact B'|]. lia. }
  destruct B as (ns & _ & B). lia.
Qed.

(** C89: no call ever waits for another: whatever state the system is in, each call in flight can take its next step,
    which leaves the others as they are. *)
Lemma c89_no_waiting_pf
  : forall (url_parse : string -> option url) (m : store) (before after_ : list (call * prog answer)) (c : call) (p : prog answer)
    (l : list (call * event)),
    exists m' e rest, step url_parse (mk_sys m (before ++ (c, p) :: after_) l) (mk_sys m' (before ++ rest ++ after_) ((c, e) :: l))
      /\ (rest = [] /\ (exists r, e = EvReturn r) \/ exists p', rest = [(c, p')]).
Proof.
  intros up m pre post c p l. destruct p as [r|s k|u st k|u k|u k|s r k].
  - exists m, (EvReturn r), []. split; [apply step_return|]. left. eauto.
  - destruct (initiate false s m) as [m' x] eqn:E. exists m', (EvInitiate s x), [(c, k x)]. split; [apply step_act; eapply act_initiate, E|]. right. eauto.
  - destruct (update_status false u st m) as [m' x] eqn:E. exists m', (EvUpdate u st x), [(c, k x)]. split; [apply step_act; eapply act_update, E|]. right. eauto.
  - exists m, (EvGet u (get_session false u m)), [(c, k (get_session false u m))]. split; [apply step_act, act_get|]. right. eauto.
  - destruct (remove_session false u m) as [m' x] eqn:E. exists m', (EvRemove u x), [(c, k x)]. split; [apply step_act; eapply act_remove, E|]. right. eauto.
  - exists m, (EvValidate s r (OError "")), [(c, k (OError ""))]. split; [apply step_act, act_validate|]. right. eauto.
Qed.

Lemma returned_app a b : returned (a ++ b) = returned b ++ returned a.
Proof. unfold returned. now rewrite rev_app_distr, flat_map_app. Qed.
Lemma finish up c : forall p m pre post l, exists m' x evs,
  steps up (mk_sys m (pre ++ (c, p) :: post) l) (mk_sys m' (pre ++ post) ((c, EvReturn x) :: evs ++ l)) /\ returned evs = [].
Proof.
  assert (G : forall p p' m m1 pre post l e, act m p m1 p' e ->
     (exists m' x evs, steps up (mk_sys m1 (pre ++ (c, p') :: post) ((c, e) :: l)) (mk_sys m' (pre ++ post) ((c, EvReturn x) :: evs ++ (c, e) :: l)) /\ returned evs = []) ->
     exists m' x evs, steps up (mk_sys m (pre ++ (c, p) :: post) l) (mk_sys m' (pre ++ post) ((c, EvReturn x) :: evs ++ l)) /\ returned evs = []).
  { intros p p' m m1 pre post l e A (m' & x & evs & S & Re). exists m', x, (evs ++ [(c, e)]). split.
    - rewrite <- app_assoc. eapply steps_trans; [|exact S]. eapply steps_snoc; [apply steps_refl|]. now apply step_act.
    - rewrite returned_app, Re. destruct A; reflexivity. }
  induction p as [r|s k IH|u st k IH|u k IH|u k IH|s r k IH]; intros m pre post l.
  - exists m, r, []. split; [|reflexivity]. eapply steps_snoc; [apply steps_refl|]. apply step_return.
  - destruct (initiate false s m) as [m1 y] eqn:E. eapply G; [eapply act_initiate; exact E|apply IH].
  - destruct (update_status false u st m) as [m1 y] eqn:E. eapply G; [eapply act_update; exact E|apply IH].
  - eapply G; [apply (act_get m u k false)|apply IH].
  - destruct (remove_session false u m) as [m1 y] eqn:E. eapply G; [eapply act_remove; exact E|apply IH].
  - eapply G; [apply (act_validate m s r k (OError ""))|apply IH].
Qed.
(** C89: so from any state all calls in flight can return, in whichever order. *)
Lemma c89_all_return_pf
  : forall (url_parse : string -> option url) (a : sys) (order : list call),
    Permutation order (map fst (sy_tasks a)) ->
    exists b l, steps url_parse a b /\ history a b l /\ sy_tasks b = [] /\ map fst (returned l) = order.
Proof.
  intros up [m ts l] order. revert m ts l. induction order as [|c order IH]; intros m ts l P; cbn [sy_tasks] in P.
  - apply Permutation_nil in P. destruct ts; [|discriminate]. exists (mk_sys m [] l), []. split; [apply steps_refl|]. repeat split.
  - assert (I : In c (map fst ts)) by (eapply Permutation_in; [exact P|now left]). apply in_map_iff in I as ([c' p] & E & I). cbn in E. subst c'.
    apply in_split in I as (pre & post & ->). rewrite map_app in P. cbn [map fst] in P. apply Permutation_cons_app_inv in P. rewrite <- map_app in P.
    destruct (finish up c p m pre post l) as (m1 & x & evs & S & Re). destruct (IH m1 (pre ++ post) ((c, EvReturn x) :: evs ++ l) P) as (b & l' & S' & H & T & Rt).
    exists b, (l' ++ (c, EvReturn x) :: evs). split; [eapply steps_trans; eassumption|]. split.
    + unfold history in *. cbn in *. rewrite H, <- app_assoc. reflexivity.
    + split; [exact T|]. rewrite returned_app. change ((c, EvReturn x) :: evs) with ([(c, EvReturn x)] ++ evs). rewrite returned_app, Re, map_app, Rt. reflexivity.
Qed.
Example c89_ends_ex :
  exists a b, reachable simple_parse a /\ quiet simple_parse a b 4 /\ length (sy_tasks a) = 1 /\ sy_tasks b = [].
Proof.
  destruct (toy_built true) as (s & d & U & St & R).
  do 2 eexists.
  split; [eapply steps_snoc; [exact R|apply (step_start _ _ _ _ (CVerify 7%N (Jwt "j")))]|]. split.
  - eapply quiet_step; [eapply quiet_step; [eapply quiet_step; [eapply quiet_step; [apply quiet_none| |]| |]| |]| |].
    + eapply (step_act _ _ _ [] _ _ _ []). apply (act_get _ _ _ false).
    + cbn. lia.
    + eapply (step_act _ _ _ [] _ _ _ []). cbn. apply (act_validate _ _ _ _ (OFailure "no")).
    + cbn. lia.
    + eapply (step_act _ _ _ [] _ _ _ []). cbn. eapply (act_update _ _ _ _ false). cbn. reflexivity.
    + cbn. lia.
    + apply (step_return _ _ [] _ _ []).
    + cbn. lia.
  - split; reflexivity.
Qed.
Example c89_all_return_ex : exists a order, reachable simple_parse a /\ order <> [] /\ Permutation order (map fst (sy_tasks a)).
Proof.
  destruct c89_ends_ex as (a & b & R & _ & L & _). exists a, (map fst (sy_tasks a)). split; [exact R|]. split; [|reflexivity].
  destruct (sy_tasks a); discriminate.
Qed.

(* --------------------------------------------------------------------- C90 *)
(** C90: cancelling calls, at whatever point, adds no behaviour: everything that is stored and everything that happened in an
    execution with cancelled calls is so in one in which the same calls are merely still in flight. *)
Lemma c90_cancelled_pf
  : forall (url_parse : string -> option url) (y : sys),
    reachable url_parse y ->
    exists y' idle, uncancelled url_parse y' /\ sy_store y' = sy_store y /\ sy_log y' = sy_log y
      /\ Permutation (sy_tasks y') (sy_tasks y ++ idle).
Proof.
  intros up y. unfold reachable. remember sys_init as a. intros H. induction H as [a|a b c H IH S]; subst.
  - exists sys_init, []. split; [constructor|]. repeat split. constructor.
  - destruct (IH eq_refl) as ([m0 ts0 l0] & idle & R & E1 & E2 & P). clear IH.
    destruct S as [m ts l c|m m' pre c p p' post l e Ha|m pre c r post l|m pre c p post l]; cbn [sy_store sy_log sy_tasks] in *; subst m0 l0.
    + exists (mk_sys m ((c, code up c) :: ts0) l), idle. split; [|repeat split; now constructor].
      eapply uncancelled_step; [exact R|]. split; [apply step_start|]. left. cbn. lia.
    + assert (I : In (c, p) ts0) by (eapply Permutation_in; [apply Permutation_sym, P|]; rewrite !in_app_iff; cbn; auto).
      apply in_split in I as (pre0 & post0 & ->). rewrite <- app_assoc in P. cbn [app] in P. apply Permutation_app_inv in P.
      exists (mk_sys m' (pre0 ++ (c, p') :: post0) ((c, e) :: l)), idle. split; [|split; [reflexivity|split; [reflexivity|]]].
      * eapply uncancelled_step; [exact R|]. split; [now apply step_act|]. right. cbn. lia.
      * cbn [sy_tasks]. rewrite <- app_assoc. cbn [app]. now apply Permutation_elt.
    + assert (I : In (c, Done r) ts0) by (eapply Permutation_in; [apply Permutation_sym, P|]; rewrite !in_app_iff; cbn; auto).
      apply in_split in I as (pre0 & post0 & ->). rewrite <- app_assoc in P. cbn [app] in P. apply Permutation_app_inv in P.
      exists (mk_sys m (pre0 ++ post0) ((c, EvReturn r) :: l)), idle. split; [|split; [reflexivity|split; [reflexivity|]]].
      * eapply uncancelled_step; [exact R|]. split; [apply step_return|]. right. cbn. lia.
      * cbn [sy_tasks]. now rewrite <- app_assoc.
    + exists (mk_sys m ts0 l), ((c, p) :: idle). split; [exact R|]. split; [reflexivity|]. split; [reflexivity|]. cbn [sy_tasks].
      rewrite P, <- !app_assoc. cbn [app]. apply Permutation_app_head. apply Permutation_middle.
Qed.
Example c90_cancelled_ex :
  exists y l c, reachable simple_parse y /\ sy_log y = l /\ sy_tasks y = [] /\ In (c, EvGet 7%N (Err "session not found")) l
    /\ returned l = [].
Proof.
  exists (mk_sys [] [] [(CPoll 7%N, EvGet 7%N (Err "session not found"))]). do 2 eexists. split; [|split; [reflexivity|]].
  - eapply steps_snoc; [eapply steps_snoc; [eapply steps_snoc; [apply steps_refl|apply (step_start _ _ _ _ (CPoll 7%N))]|]|].
    + eapply (step_act _ _ _ [] _ _ _ []). apply (act_get _ _ _ false).
    + apply (step_drop _ _ [] _ _ []).
  - split; [reflexivity|]. split; [now left|reflexivity].
Qed.
