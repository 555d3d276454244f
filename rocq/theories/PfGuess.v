From Coq Require Import Lia Permutation.
From Verif Require Import Base BaseFacts Utf8 Json Url Request Metadata Dcql Response Session StoreFacts Client Builder Server ExVerifier.
From Verif Require Import SpecSession SpecServer SpecBuilder SpecVerifierEx UuidFacts RandomId SpecRandomId PfBuilder PfServer PfExServer PfRandomId SpecGuess.

Lemma targets_pfinish {A B} (f : res A -> B) u (p : prog A) : targets u p -> targets u (pfinish f p).
Proof. induction p as [r|s k IH|v st k IH|v k IH|v k IH|s r k IH]; cbn [targets pfinish]; intuition auto. Qed.

Section S.
Variable up : string -> option url.
Variable op : string -> res string.
Variable a : adapter.

Lemma handler_targets h u : (forall v, about h = Some v -> v = u) -> targets u (handler up a h).
Proof.
  destruct h as [n f id|sid|sid body|sid]; cbn [about handler]; intros H.
  - rewrite <- (H id eq_refl). unfold initiate_request. apply targets_pfinish. unfold build_code.
    destruct (rb_prepare up (initiate_builder a n f) id (ap_wallet a)) as [[s d]|e] eqn:E; [|exact I].
    apply prepare_initial in E as [U S]. cbn. auto.
  - unfold get_request_object. destruct (uuid_of_string sid) as [v|]; [|exact I]. rewrite (H v eq_refl). apply targets_pfinish.
    cbn. split; [reflexivity|]. intros [s|e]; [|exact I]. destruct (status_lt (s_status s) SentRequest); cbn; auto.
  - unfold receive_response. destruct (utf8_valid body); [|exact I]. destruct (uuid_of_string sid) as [v|]; [|exact I].
    destruct (from_form body) as [r|]; [|exact I]. rewrite (H v eq_refl). apply targets_pfinish. cbn. split; [reflexivity|].
    intros [s|e]; cbn; auto.
  - unfold get_status. destruct (uuid_of_string sid) as [v|]; [|exact I]. rewrite (H v eq_refl). apply targets_pfinish. cbn. auto.
Qed.

(** [next] takes the actions of the server. *)
Lemma next_act c p m m' r e : next op c p m = Some (m', r, e) ->
  match r with
  | Some q => exists ev, e = HDoes ev /\ act m p m' q ev /\ forall s rs o, ev = EvValidate s rs o -> o = app_validator op s rs
  | None => exists x, p = Done (Ok x) /\ m' = m /\ e = HReply x
  end.
Proof.
  destruct p as [[x|er]|s k|u st k|u k|u k|s rs k]; cbn [next].
  - intros H. injection H as <- <- <-. eauto.
  - discriminate.
  - destruct (initiate c s m) as [m1 x] eqn:E. intros H. injection H as <- <- <-. eexists. split; [reflexivity|]. split; [econstructor; exact E|discriminate].
  - destruct (update_status c u st m) as [m1 x] eqn:E. intros H. injection H as <- <- <-. eexists. split; [reflexivity|]. split; [econstructor; exact E|discriminate].
  - intros H. injection H as <- <- <-. eexists. split; [reflexivity|]. split; [constructor|discriminate].
  - destruct (remove_session c u m) as [m1 x] eqn:E. intros H. injection H as <- <- <-. eexists. split; [reflexivity|]. split; [econstructor; exact E|discriminate].
  - intros H. injection H as <- <- <-. eexists. split; [reflexivity|]. split; [constructor|]. intros s' r' o E. injection E as <- <- <-. reflexivity.
Qed.
Lemma act_next m p m' q ev : act m p m' q ev -> (forall s rs o, ev = EvValidate s rs o -> o = app_validator op s rs) ->
  exists c, next op c p m = Some (m', Some q, HDoes ev).
Proof.
  intros H V. destruct H as [m s k c m' x E|m v st k c m' x E|m v k c|m v k c m' x E|m s r k o].
  - exists c. cbn [next]. now rewrite E.
  - exists c. cbn [next]. now rewrite E.
  - exists c. reflexivity.
  - exists c. cbn [next]. now rewrite E.
  - exists false. cbn [next]. now rewrite (V s r o eq_refl).
Qed.

(** What is done next for a request about [v] depends on the session under [v] only. *)
Lemma next_same c v p m1 m2 m1' r e : targets v p -> ssorted m1 -> ssorted m2 -> st_get v m1 = st_get v m2 ->
  next op c p m1 = Some (m1', r, e) ->
  exists m2', next op c p m2 = Some (m2', r, e) /\ st_get v m1' = st_get v m2' /\ ssorted m1' /\ ssorted m2'
    /\ (forall x, x <> v -> st_get x m1' = st_get x m1) /\ (forall x, x <> v -> st_get x m2' = st_get x m2)
    /\ forall q, r = Some q -> targets v q.
Proof.
  intros T S1 S2 G. destruct p as [[x|er]|s k|u st k|u k|u k|s rs k]; cbn [next targets] in *.
  - intros H. injection H as <- <- <-. exists m2. repeat split; auto. discriminate.
  - discriminate.
  - destruct T as (U & _ & T). destruct (initiate c s m1) as [n1 x1] eqn:E1. destruct (initiate c s m2) as [n2 x2] eqn:E2.
    assert (x2 = x1) as -> by (unfold initiate in *; destruct c; congruence).
    intros H. injection H as <- <- <-. exists n2. split; [reflexivity|].
    pose proof (fun y => initiate_get _ _ _ _ _ y E1) as I1. pose proof (fun y => initiate_get _ _ _ _ _ y E2) as I2.
    assert (ssorted n1) by (unfold initiate in E1; destruct c; injection E1 as <- _; [assumption|now apply ssorted_insert]).
    assert (ssorted n2) by (unfold initiate in E2; destruct c; injection E2 as <- _; [assumption|now apply ssorted_insert]).
    rewrite U in I1, I2. split; [rewrite I1, I2; destruct x1; [now rewrite N.eqb_refl|exact G]|]. split; [assumption|]. split; [assumption|].
    split; [intros y Hy; rewrite I1; destruct x1; [|reflexivity]; now rewrite (proj2 (N.eqb_neq y v) Hy)|].
    split; [intros y Hy; rewrite I2; destruct x1; [|reflexivity]; now rewrite (proj2 (N.eqb_neq y v) Hy)|].
    intros q Q. injection Q as <-. apply T.
  - destruct T as (-> & T). destruct (update_status c v st m1) as [n1 x1] eqn:E1. destruct (update_status c v st m2) as [n2 x2] eqn:E2.
    assert (x2 = x1) as -> by (unfold update_status in *; destruct c; [congruence|]; rewrite G in E1; destruct (st_get v m2); congruence).
    intros H. injection H as <- <- <-. exists n2. split; [reflexivity|].
    pose proof (fun y => proj1 (update_get _ _ _ _ _ _ y E1)) as I1. pose proof (fun y => proj1 (update_get _ _ _ _ _ _ y E2)) as I2.
    assert (ssorted n1) by (unfold update_status in E1; destruct c; [injection E1 as <- _; assumption|]; destruct (st_get v m1); injection E1 as <- _; [now apply ssorted_insert|assumption]).
    assert (ssorted n2) by (unfold update_status in E2; destruct c; [injection E2 as <- _; assumption|]; destruct (st_get v m2); injection E2 as <- _; [now apply ssorted_insert|assumption]).
    split; [rewrite I1, I2; destruct x1; [now rewrite N.eqb_refl, G|exact G]|]. split; [assumption|]. split; [assumption|].
    split; [intros y Hy; rewrite I1; destruct x1; [|reflexivity]; now rewrite (proj2 (N.eqb_neq y v) Hy)|].
    split; [intros y Hy; rewrite I2; destruct x1; [|reflexivity]; now rewrite (proj2 (N.eqb_neq y v) Hy)|].
    intros q Q. injection Q as <-. apply T.
  - destruct T as (-> & T). assert (get_session c v m2 = get_session c v m1) as -> by (unfold get_session; now rewrite G).
    intros H. injection H as <- <- <-. exists m2. repeat split; auto. intros q Q. injection Q as <-. apply T.
  - destruct T as (-> & T). destruct (remove_session c v m1) as [n1 x1] eqn:E1. destruct (remove_session c v m2) as [n2 x2] eqn:E2.
    assert (x2 = x1) as -> by (unfold remove_session in *; destruct c; [congruence|]; rewrite G in E1; destruct (st_get v m2); congruence).
    intros H. injection H as <- <- <-. exists n2. split; [reflexivity|].
    pose proof (fun y => proj1 (remove_get _ _ _ _ _ y S1 E1)) as I1. pose proof (fun y => proj1 (remove_get _ _ _ _ _ y S2 E2)) as I2.
    assert (ssorted n1) by (unfold remove_session in E1; destruct c; [injection E1 as <- _; assumption|]; destruct (st_get v m1); injection E1 as <- _; [now apply ssorted_remove|assumption]).
    assert (ssorted n2) by (unfold remove_session in E2; destruct c; [injection E2 as <- _; assumption|]; destruct (st_get v m2); injection E2 as <- _; [now apply ssorted_remove|assumption]).
    split; [rewrite I1, I2; destruct x1; [now rewrite N.eqb_refl|exact G]|]. split; [assumption|]. split; [assumption|].
    split; [intros y Hy; rewrite I1; destruct x1; [|reflexivity]; now rewrite (proj2 (N.eqb_neq y v) Hy)|].
    split; [intros y Hy; rewrite I2; destruct x1; [|reflexivity]; now rewrite (proj2 (N.eqb_neq y v) Hy)|].
    intros q Q. injection Q as <-. apply T.
  - intros H. injection H as <- <- <-. exists m2. repeat split; auto. intros q Q. injection Q as <-. apply T.
Qed.
Lemma next_none c p m1 m2 : next op c p m1 = None -> next op c p m2 = None.
Proof.
  destruct p as [[x|er]|s k|u st k|u k|u k|s rs k]; cbn [next]; try discriminate; auto.
  - destruct (initiate c s m1). discriminate.
  - destruct (update_status c u st m1). discriminate.
  - destruct (remove_session c u m1). discriminate.
Qed.

(** A party all of whose requests are about sessions in [V]. *)
Definition within (V : uuid -> Prop) (p : party) : Prop := forall h q, In (h, q) (pt_tasks p) -> exists v, V v /\ targets v q.
Definition alike (V : uuid -> Prop) (m1 m2 : store) : Prop := forall v, V v -> st_get v m1 = st_get v m2.
Lemma in_cut {A} (x : A) i l : In x (firstn i l ++ skipn (S i) l) -> In x l.
Proof.
  intros H. apply in_app_or in H. destruct H as [H|H].
  - rewrite <- (firstn_skipn i l). apply in_or_app. now left.
  - rewrite <- (firstn_skipn (S i) l). apply in_or_app. now right.
Qed.
Lemma play_same V mv p m1 m2 m1' p' : within V p -> (forall h, mv = Send h -> exists v, V v /\ targets v (handler up a h)) ->
  ssorted m1 -> ssorted m2 -> alike V m1 m2 -> play up op a mv p m1 = (m1', p') ->
  exists m2', play up op a mv p m2 = (m2', p') /\ within V p' /\ ssorted m1' /\ ssorted m2' /\ alike V m1' m2'
    /\ (forall x, ~ V x -> st_get x m1' = st_get x m1) /\ (forall x, ~ V x -> st_get x m2' = st_get x m2).
Proof.
  intros W Hs S1 S2 G. destruct mv as [h|i c|i|]; cbn [play].
  - intros H. injection H as <- <-. exists m2. split; [reflexivity|]. repeat split; auto.
    intros h' q [E|I]; [injection E as <- <-; now apply Hs|now apply (W h')].
  - destruct (nth_error (pt_tasks p) i) as [[h q]|] eqn:E.
    2:{ intros H. injection H as <- <-. exists m2. repeat split; auto. }
    pose proof (W h q (nth_error_In _ _ E)) as (v & Vv & T).
    destruct (next op c q m1) as [[[n1 r] e]|] eqn:X.
    2:{ rewrite (next_none _ _ _ m2 X). intros H. injection H as <- <-. exists m2. repeat split; auto. }
    destruct (next_same c v q m1 m2 n1 r e T S1 S2 (G v Vv) X) as (n2 & X2 & G' & S1' & S2' & O1 & O2 & R). rewrite X2.
    intros H. injection H as <- <-. exists n2. split; [reflexivity|]. split.
    { intros h' q' I. cbn [pt_tasks] in I. apply in_app_or in I. destruct I as [I|I]; [apply (W h' q'), (in_cut _ i), in_or_app; now left|].
      apply in_app_or in I. destruct I as [I|I]; [|apply (W h' q'), (in_cut _ i), in_or_app; now right].
      destruct r as [q0|]; [|contradiction I]. destruct I as [I|[]]. injection I as <- <-. exists v. split; [exact Vv|]. now apply R. }
    split; [assumption|]. split; [assumption|]. split.
    { intros y Vy. destruct (N.eq_dec y v) as [->|Ny]; [exact G'|]. now rewrite (O1 y Ny), (O2 y Ny), (G y Vy). }
    split; intros y Ny; [apply O1|apply O2]; intros ->; contradiction.
  - intros H. injection H as <- <-. exists m2. split; [reflexivity|]. repeat split; auto.
    intros h q I. apply (W h q), (in_cut _ i), I.
  - intros H. injection H as <- <-. exists m2. repeat split; auto.
Qed.
Lemma play_sent mv p m : exists l, pt_sent (snd (play up op a mv p m)) = l ++ pt_sent p.
Proof.
  destruct mv as [h|i c|i|]; cbn [play]; try (now exists []); [now exists [h]|].
  destruct (nth_error (pt_tasks p) i) as [[h q]|]; [|now exists []]. destruct (next op c q m) as [[[n r] e]|]; now exists [].
Qed.

(** While the second party does not name the session of the first, each goes on as if the other were not there. *)
Lemma apart u f s : keeps_to u f -> forall turns,
  (forall h, In h (pt_sent (wo_second (game up op a nobody s turns))) -> about h <> Some u) ->
  let x := game up op a f s turns in let y := game up op a nobody s turns in let z := game up op a f nobody turns in
  wo_second x = wo_second y /\ wo_first x = wo_first z /\ wo_first y = newcomer /\ wo_second z = newcomer
  /\ within (fun v => v = u) (wo_first z) /\ within (fun v => v <> u) (wo_second y)
  /\ ssorted (wo_store x) /\ ssorted (wo_store y) /\ ssorted (wo_store z)
  /\ alike (fun v => v = u) (wo_store x) (wo_store z) /\ alike (fun v => v <> u) (wo_store x) (wo_store y)
  /\ (st_get u (wo_store y) = None).
Proof.
  intros K. induction turns as [|t l IH]; cbn zeta; intros Hq.
  - cbn [game wo_store wo_first wo_second]. repeat split; try (intros h q []); try constructor.
  - cbn zeta in IH. cbn [game]. cbn [game] in Hq.
    destruct (game up op a f s l) as [mx fx sx]. destruct (game up op a nobody s l) as [my fy sy]. destruct (game up op a f nobody l) as [mz fz sz].
    cbn [wo_store wo_first wo_second] in *.
    assert (Hq' : forall h, In h (pt_sent sy) -> about h <> Some u).
    { intros h I. apply Hq. destruct t; cbn [nobody play wo_second]; [exact I|].
      destruct (play_sent (s (length l) sy) sy my) as (l' & E). destruct (play up op a (s (length l) sy) sy my) as [m' p']. cbn [wo_second snd] in *.
      rewrite E. apply in_or_app. now right. }
    destruct (IH Hq') as (-> & -> & -> & -> & Wf & Ws & Sx & Sy & Sz & Af & As & Ny). clear IH Hq'.
    destruct t; cbn [nobody play wo_store wo_first wo_second].
    + destruct (play up op a (f (length l) fz) fz mx) as [m' p'] eqn:E.
      edestruct (play_same (fun v => v = u)) as (mz' & E' & W' & S1 & S2 & A' & O1 & O2); [exact Wf| |exact Sx|exact Sz|exact Af|exact E|].
      { intros h Eh. exists u. split; [reflexivity|]. apply handler_targets. intros v. exact (K _ _ _ _ Eh). }
      rewrite E'. cbn [wo_store wo_first wo_second]. repeat (split; [try reflexivity; assumption|]). split; [|exact Ny].
      intros v Nv. rewrite (O1 v Nv). now apply As.
    + destruct (play up op a (s (length l) sy) sy mx) as [m' p'] eqn:E.
      edestruct (play_same (fun v => v <> u)) as (my' & E' & W' & S1 & S2 & A' & O1 & O2); [exact Ws| |exact Sx|exact Sy|exact As|exact E|].
      { intros h Eh. assert (Nh : about h <> Some u).
        { apply Hq. rewrite Eh. cbn [play wo_second pt_sent]. now left. }
        destruct (about h) as [v|] eqn:Ab.
        - exists v. split; [congruence|]. apply handler_targets. congruence.
        - exists (N.succ u). split; [lia|]. apply handler_targets. congruence. }
      rewrite E'. cbn [wo_store wo_first wo_second]. repeat (split; [try reflexivity; assumption|]).
      split; [|split; [exact A'|]].
      * intros v ->. rewrite (O1 u); [now apply Af|]. intros Q. now apply Q.
      * rewrite (O2 u); [exact Ny|]. intros Q. now apply Q.
Qed.

(** Playing is what the server does. *)
Lemma merged_nil {A} (l : list A) : merged [] l l.
Proof. induction l; constructor; auto. Qed.
Lemma perm_mid {A} (x y : A) l l1 l2 rest : Permutation l (rest ++ l1 ++ x :: l2) ->
  exists k1 k2, l = k1 ++ x :: k2 /\ Permutation (k1 ++ k2) (rest ++ l1 ++ l2) /\ Permutation (k1 ++ y :: k2) (rest ++ l1 ++ y :: l2).
Proof.
  intros P. assert (In x l) as I by (eapply Permutation_in; [symmetry; exact P|]; apply in_or_app; right; apply in_or_app; right; now left).
  apply in_split in I. destruct I as (k1 & k2 & ->). exists k1, k2. split; [reflexivity|].
  assert (Q : Permutation (k1 ++ k2) (rest ++ l1 ++ l2)).
  { rewrite app_assoc. apply Permutation_app_inv with x. now rewrite <- app_assoc. }
  split; [exact Q|]. rewrite <- Permutation_middle. rewrite Q. rewrite !app_assoc. apply Permutation_middle.
Qed.
Lemma cut_mid {A} i (l : list A) x : nth_error l i = Some x -> l = firstn i l ++ x :: skipn (S i) l.
Proof.
  revert l. induction i as [|i IH]; intros [|y l]; cbn [nth_error firstn skipn app]; try discriminate.
  - intros E. now injection E as ->.
  - intros E. f_equal. now apply IH.
Qed.
Lemma play_steps mv p m m' p' ts l other : play up op a mv p m = (m', p') ->
  Permutation ts (other ++ pt_tasks p) ->
  exists ts' new, (mk_hsys m' ts' (new ++ l) = mk_hsys m ts l \/ hstep up op a (mk_hsys m ts l) (mk_hsys m' ts' (new ++ l)))
    /\ Permutation ts' (other ++ pt_tasks p') /\ pt_log p' = new ++ pt_log p.
Proof.
  intros E P. destruct mv as [h|i c|i|]; cbn [play] in E.
  - injection E as <- <-. exists ((h, handler up a h) :: ts), []. split; [right; constructor|]. split; [|reflexivity].
    cbn [pt_tasks]. rewrite P. apply Permutation_middle.
  - destruct (nth_error (pt_tasks p) i) as [[h q]|] eqn:X.
    2:{ injection E as <- <-. exists ts, []. auto. }
    destruct (next op c q m) as [[[n r] e]|] eqn:Y.
    2:{ injection E as <- <-. exists ts, []. auto. }
    injection E as <- <-. cbn [pt_tasks pt_log]. rewrite (cut_mid _ _ _ X) in P.
    pose proof (next_act _ _ _ _ _ _ Y) as Z. destruct r as [q'|].
    + destruct Z as (ev & -> & A & V). destruct (perm_mid (h, q) (h, q') ts _ _ other P) as (k1 & k2 & -> & _ & Q).
      exists (k1 ++ (h, q') :: k2), [(h, HDoes ev)]. split; [right; constructor; assumption|]. split; [exact Q|reflexivity].
    + destruct Z as (x & -> & -> & ->). destruct (perm_mid (h, Done (Ok x)) (h, Done (Ok x)) ts _ _ other P) as (k1 & k2 & -> & Q & _).
      exists (k1 ++ k2), [(h, HReply x)]. split; [right; constructor|]. split; [exact Q|reflexivity].
  - injection E as <- <-. cbn [pt_tasks pt_log]. destruct (nth_error (pt_tasks p) i) as [[h q]|] eqn:X.
    + rewrite (cut_mid _ _ _ X) in P. destruct (perm_mid (h, q) (h, q) ts _ _ other P) as (k1 & k2 & -> & Q & _).
      exists (k1 ++ k2), []. split; [right; constructor|]. split; [exact Q|reflexivity].
    + exists ts, []. split; [now left|]. split; [|reflexivity]. apply nth_error_None in X.
      assert (Z : firstn i (pt_tasks p) ++ skipn (S i) (pt_tasks p) = pt_tasks p) by (rewrite firstn_all2, skipn_all2 by lia; apply app_nil_r).
      exact (eq_ind_r (fun l => Permutation ts (other ++ l)) P Z).
  - injection E as <- <-. exists ts, []. auto.
Qed.
Lemma merged_app_first {A} (l l' all new : list A) : merged l l' all -> merged (new ++ l) l' (new ++ all).
Proof. intros H. induction new; cbn [app]; [exact H|]. now constructor. Qed.
Lemma merged_app_second {A} (l l' all new : list A) : merged l l' all -> merged l (new ++ l') (new ++ all).
Proof. intros H. induction new; cbn [app]; [exact H|]. now constructor. Qed.
End S.

(** The moves of a script, one after the other. *)
Definition scripted (moves : list move) : strategy := fun n _ => nth n moves Wait.
(** The owner of a session under the identifier of a word asks for a presentation; then a stranger asks for the status of a session. *)
Definition owner (w : N) : strategy := scripted [Send (HInitiate (Some "nonce") 1%N (new_v4 w)); Proceed 0 false; Proceed 0 false].
Definition guesser (w : N) : strategy := scripted [Wait; Wait; Wait; Send (HStatus (uuid_str (new_v4 w))); Proceed 0 false; Proceed 0 false].
Definition toy_turns : list bool := [false; false; false; true; true; true].
Notation toy_game := (game simple_parse toy_open (toy_adapter true)).
Lemma owner_keeps w : keeps_to (new_v4 w) (owner w).
Proof.
  intros n p h v. unfold owner, scripted. destruct n as [|[|[|n]]]; cbn [nth]; try discriminate.
  - intros E. injection E as <-. cbn [about]. intros E. now injection E as <-.
  - destruct n; discriminate.
Qed.
(** Whether the last answer was that there is no such session, or what is sent for one. *)
Definition last_found (p : party) : option bool :=
  match pt_log p with
  | (_, HReply (RError _)) :: _ => Some false
  | (_, HReply (RJson _ _)) :: _ => Some true
  | _ => None
  end.

(** C127: if the requests of the second party, in a world without the first, are not about the session of the first, then with the
    first there everything done for the second is the same; everything done for the first, and its session, is as in a world
    without the second. *)
Lemma c127_apart_pf :
  forall (url_parse : string -> option url) (jwe_open : string -> res string) (a : adapter) (u : uuid) (first second : strategy) (turns : list bool),
    keeps_to u first ->
    (forall h, In h (pt_sent (wo_second (game url_parse jwe_open a nobody second turns))) -> about h <> Some u) ->
    let x := game url_parse jwe_open a first second turns in
    wo_second x = wo_second (game url_parse jwe_open a nobody second turns)
    /\ wo_first x = wo_first (game url_parse jwe_open a first nobody turns)
    /\ st_get u (wo_store x) = st_get u (wo_store (game url_parse jwe_open a first nobody turns)).
Proof.
  intros up op a u f s turns K H. destruct (apart up op a u f s K turns H) as (E1 & E2 & _ & _ & _ & _ & _ & _ & _ & A & _). cbn zeta.
  split; [exact E1|]. split; [exact E2|]. now apply A.
Qed.

Example c127_apart_ex :
  let x := toy_game (owner 6) (guesser 5) toy_turns in
  keeps_to (new_v4 6) (owner 6)
  /\ (forall h, In h (pt_sent (wo_second (toy_game nobody (guesser 5) toy_turns))) -> about h <> Some (new_v4 6))
  /\ last_found (wo_first x) = Some true /\ last_found (wo_second x) = Some false /\ st_get (new_v4 6) (wo_store x) <> None.
Proof.
  cbn zeta. split; [apply owner_keeps|]. split.
  - assert (E : map about (pt_sent (wo_second (toy_game nobody (guesser 5) toy_turns))) = [Some (new_v4 5)]) by (vm_compute; reflexivity).
    intros h I A. assert (J : In (Some (new_v4 6)) [Some (new_v4 5)]) by (rewrite <- E, <- A; exact (in_map about _ h I)). destruct J as [J|[]]. vm_compute in J. discriminate J.
  - split; [vm_compute; reflexivity|]. split; [vm_compute; reflexivity|].
    assert (E : match st_get (new_v4 6) (wo_store (toy_game (owner 6) (guesser 5) toy_turns)) with Some _ => true | None => false end = true) by (vm_compute; reflexivity).
    intros Q. rewrite Q in E. discriminate E.
Qed.

(** C127: whoever does not know the identifier of a session learns nothing about it and changes nothing in it, whatever they send, as
    often, as concurrently and as adaptively as they like, unless they happen to name it: with the session under the identifier of a random
    word, this happens for at most a fraction of q / 2^122 of the words when they send q requests. *)
Lemma c127_stranger_pf :
  forall (url_parse : string -> option url) (jwe_open : string -> res string) (a : adapter) (first : N -> strategy) (second : strategy)
         (turns : list bool) (words : list N),
    (forall w, keeps_to (new_v4 w) (first w)) ->
    NoDup words ->
    (forall w, In w words -> word w
       /\ let x := game url_parse jwe_open a (first w) second turns in
          ~ (wo_second x = wo_second (game url_parse jwe_open a nobody second turns)
             /\ wo_first x = wo_first (game url_parse jwe_open a (first w) nobody turns)
             /\ st_get (new_v4 w) (wo_store x) = st_get (new_v4 w) (wo_store (game url_parse jwe_open a (first w) nobody turns)))) ->
    (count words * 2 ^ 122 <= count (pt_sent (wo_second (game url_parse jwe_open a nobody second turns))) * 2 ^ 128)%N.
Proof.
  intros up op a f s turns words K Nd H.
  set (sent := pt_sent (wo_second (game up op a nobody s turns))) in *.
  set (guesses := flat_map (fun h => match about h with Some v => [v] | None => [] end) sent).
  assert (L : (count guesses <= count sent)%N).
  { unfold guesses, count. clearbody sent. clear. induction sent as [|h l IH]; cbn [flat_map length]; [lia|]. rewrite app_length.
    destruct (about h); cbn [length]; lia. }
  apply N.le_trans with (count guesses * 2 ^ 128)%N; [|now apply N.mul_le_mono_r].
  apply c126_guesses_pf; [exact Nd|]. intros w I. destruct (H w I) as [Hw D]. split; [exact Hw|].
  destruct (in_dec N.eq_dec (new_v4 w) guesses) as [Y|Y]; [exact Y|]. exfalso. apply D. apply c127_apart_pf; [apply K|].
  intros h Ih Ab. apply Y. unfold guesses. apply in_flat_map. exists h. split; [exact Ih|]. rewrite Ab. now left.
Qed.

Example c127_stranger_ex :
  (forall w, keeps_to (new_v4 w) (owner w)) /\ NoDup [5%N] /\ word 5
  /\ last_found (wo_second (toy_game (owner 5) (guesser 5) toy_turns)) = Some true
  /\ last_found (wo_second (toy_game nobody (guesser 5) toy_turns)) = Some false
  /\ count (pt_sent (wo_second (toy_game nobody (guesser 5) toy_turns))) = 1%N.
Proof.
  split; [exact owner_keeps|]. split; [constructor; [intros []|constructor]|]. split; [reflexivity|].
  split; [vm_compute; reflexivity|]. split; vm_compute; reflexivity.
Qed.

(** C127: the two parties use the server of C94: what they do together is an execution of it. *)
Lemma c127_server_pf :
  forall (url_parse : string -> option url) (jwe_open : string -> res string) (a : adapter) (first second : strategy) (turns : list bool),
    let x := game url_parse jwe_open a first second turns in
    exists y, hreachable url_parse jwe_open a y /\ hs_store y = wo_store x
      /\ Permutation (hs_tasks y) (pt_tasks (wo_first x) ++ pt_tasks (wo_second x))
      /\ merged (pt_log (wo_first x)) (pt_log (wo_second x)) (hs_log y).
Proof.
  intros up op a f s turns. cbn zeta. induction turns as [|t l IH].
  - exists hs_init. repeat split; try constructor.
  - destruct IH as ([m ts lg] & R & E & P & M). cbn [game]. destruct (game up op a f s l) as [mx fx sx]. cbn [wo_store wo_first wo_second hs_store hs_tasks hs_log] in *.
    subst m. destruct t.
    + destruct (play up op a (f (length l) fx) fx mx) as [m' p'] eqn:E. cbn [wo_store wo_first wo_second].
      rewrite Permutation_app_comm in P. destruct (play_steps up op a _ _ _ _ _ ts lg (pt_tasks sx) E P) as (ts' & new & St & P' & Lg).
      exists (mk_hsys m' ts' (new ++ lg)). split.
      { destruct St as [->|St]; [exact R|]. eapply hsteps_snoc; [exact R|exact St]. }
      split; [reflexivity|]. split; [cbn [hs_tasks]; now rewrite Permutation_app_comm|]. cbn [hs_log]. rewrite Lg. now apply merged_app_first.
    + destruct (play up op a (s (length l) sx) sx mx) as [m' p'] eqn:E. cbn [wo_store wo_first wo_second].
      destruct (play_steps up op a _ _ _ _ _ ts lg (pt_tasks fx) E P) as (ts' & new & St & P' & Lg).
      exists (mk_hsys m' ts' (new ++ lg)). split.
      { destruct St as [->|St]; [exact R|]. eapply hsteps_snoc; [exact R|exact St]. }
      split; [reflexivity|]. split; [exact P'|]. cbn [hs_log]. rewrite Lg. now apply merged_app_second.
Qed.

Example c127_server_ex :
  let x := toy_game (owner 6) (guesser 5) toy_turns in length (pt_log (wo_first x)) = 2 /\ length (pt_log (wo_second x)) = 2.
Proof. cbn zeta. split; vm_compute; reflexivity. Qed.

Lemma game_ext up op a s s' turns : (forall n p, n < length turns -> s n p = s' n p) -> game up op a nobody s turns = game up op a nobody s' turns.
Proof.
  induction turns as [|t l IH]; intros H; [reflexivity|]. cbn [game]. rewrite IH by (intros n p L; apply H; cbn [length]; lia).
  destruct t; [reflexivity|]. now rewrite H by (cbn [length]; lia).
Qed.
Lemma mid_cut {A} (pre post : list A) x : nth_error (pre ++ x :: post) (length pre) = Some x
  /\ firstn (length pre) (pre ++ x :: post) = pre /\ skipn (S (length pre)) (pre ++ x :: post) = post.
Proof. induction pre as [|y pre IH]; cbn; [auto|]. destruct IH as (E1 & E2 & E3). split; [exact E1|]. split; [now rewrite E2|exact E3]. Qed.

(** C127: and a single party can bring about every execution of the server: nothing a stranger could do is left out. *)
Lemma c127_power_pf :
  forall (url_parse : string -> option url) (jwe_open : string -> res string) (a : adapter) (y : hsys),
    hreachable url_parse jwe_open a y ->
    exists (second : strategy) (turns : list bool),
      let x := game url_parse jwe_open a nobody second turns in
      wo_store x = hs_store y /\ pt_tasks (wo_second x) = hs_tasks y /\ pt_log (wo_second x) = hs_log y.
Proof.
  intros up op a y R.
  assert (G : exists moves, let x := game up op a nobody (scripted moves) (repeat false (length moves)) in
            wo_store x = hs_store y /\ pt_tasks (wo_second x) = hs_tasks y /\ pt_log (wo_second x) = hs_log y).
  { unfold hreachable in R. remember hs_init as z eqn:Z. induction R as [x|x y z' R IH St]; [subst x; exists []; repeat split|].
    destruct (IH Z) as (moves & E1 & E2 & E3). clear IH R. cbn zeta in E1, E2, E3.
    assert (Go : forall mv m' ts' l', (let p := wo_second (game up op a nobody (scripted moves) (repeat false (length moves))) in
        exists p', play up op a mv p (hs_store y) = (m', p') /\ pt_tasks p' = ts' /\ pt_log p' = l') ->
      exists moves, let x := game up op a nobody (scripted moves) (repeat false (length moves)) in
            wo_store x = m' /\ pt_tasks (wo_second x) = ts' /\ pt_log (wo_second x) = l').
    { intros mv m' ts' l' (p' & Ep & Et & El). exists (moves ++ [mv]). rewrite app_length. cbn [length]. rewrite Nat.add_1_r. cbn [repeat game].
      rewrite (game_ext up op a (scripted (moves ++ [mv])) (scripted moves)).
      2:{ intros n p L. rewrite repeat_length in L. unfold scripted. now apply app_nth1. }
      rewrite repeat_length.
      assert (Q : forall p, scripted (moves ++ [mv]) (length moves) p = mv) by (intros p; unfold scripted; now rewrite app_nth2, Nat.sub_diag by lia).
      rewrite !Q.
      rewrite E1, Ep. cbn [wo_store wo_second]. auto. }
    destruct (wo_second (game up op a nobody (scripted moves) (repeat false (length moves)))) as [sent ts lg]. cbn [pt_tasks pt_log] in E2, E3. subst ts lg.
    destruct St as [m ts l h|m m' pre h p p' post l e A V|m pre h r post l|m pre h p post l]; cbn [hs_store hs_tasks hs_log] in *.
    - apply (Go (Send h)). eexists. split; [reflexivity|]. split; reflexivity.
    - destruct (act_next op _ _ _ _ _ A V) as (c & N0). destruct (mid_cut pre post (h, p)) as (C1 & C2 & C3).
      apply (Go (Proceed (length pre) c)). cbn [play pt_tasks pt_log pt_sent]. rewrite C1, N0, C2, C3. eexists. split; [reflexivity|]. split; reflexivity.
    - destruct (mid_cut pre post (h, @Done reply (Ok r))) as (C1 & C2 & C3).
      apply (Go (Proceed (length pre) false)). cbn [play pt_tasks pt_log pt_sent]. rewrite C1, C2, C3. cbn [next]. eexists. split; [reflexivity|]. split; reflexivity.
    - destruct (mid_cut pre post (h, p)) as (C1 & C2 & C3).
      apply (Go (Abandon (length pre))). cbn [play pt_tasks pt_log pt_sent]. rewrite C2, C3. eexists. split; [reflexivity|]. split; reflexivity. }
  destruct G as (moves & G). exists (scripted moves), (repeat false (length moves)). exact G.
Qed.

Example c127_power_ex : exists y, hreachable simple_parse toy_open (toy_adapter true) y /\ length (hs_log y) = 4.
Proof.
  destruct (c127_server_pf simple_parse toy_open (toy_adapter true) (owner 6) (guesser 5) toy_turns) as (y & R & _ & _ & M). exists y. split; [exact R|].
  assert (L : forall (l l' all : list (hreq * hevent)), merged l l' all -> length all = length l + length l')
    by (intros l l' all H; induction H; cbn [length]; lia).
  rewrite (L _ _ _ M). destruct c127_server_ex as [-> ->]. reflexivity.
Qed.
