From Coq Require Import Lia.
From Verif Require Import Base BaseFacts Json Url Request Metadata Dcql Response Session StoreFacts Client Builder Server SpecSession PfBuilder PfServer
  SpecBuilder AnyStore SpecStore.

(* ------------------------------------------------------------ one call *)
(** [p] does [es] and becomes [q], whatever the answers. *)
Inductive does {A} : prog A -> list event -> prog A -> Prop :=
| does_none p : does p [] p
| does_initiate s k x es q : does (k x) es q -> does (Initiate s k) (EvInitiate s x :: es) q
| does_update u v k x es q : does (k x) es q -> does (Update u v k) (EvUpdate u v x :: es) q
| does_get u k x es q : does (k x) es q -> does (Get u k) (EvGet u x :: es) q
| does_remove u k x es q : does (k x) es q -> does (Remove u k) (EvRemove u x :: es) q
| does_validate s r k o es q : does (k o) es q -> does (Validate s r k) (EvValidate s r o :: es) q.
Lemma does_snoc {S A} (st : session_store S) (p q : prog A) es m m' q' e : does p es q -> act_on st m q m' q' e -> does p (es ++ [e]) q'.
Proof.
  intros D H. induction D as [p|s k x es q D IH|u v k x es q D IH|u k x es q D IH|u k x es q D IH|s r k o es q D IH]; cbn [app]; try (constructor; now apply IH).
  destruct H; repeat constructor.
Qed.
Lemma does_app {A} (p q r : prog A) es fs : does p es q -> does q fs r -> does p (es ++ fs) r.
Proof. intros D F. induction D; cbn [app]; [exact F|constructor; auto ..]. Qed.
Lemma finishes {A} (p : prog A) : exists es r, does p es (Done r).
Proof.
  induction p as [r|s k IH|u v k IH|u k IH|u k IH|s r k IH].
  - exists [], r. constructor.
  - destruct (IH (Err "")) as (es & r & D). do 2 eexists. econstructor. exact D.
  - destruct (IH (Err "")) as (es & r & D). do 2 eexists. econstructor. exact D.
  - destruct (IH (Err "")) as (es & r & D). do 2 eexists. econstructor. exact D.
  - destruct (IH (Err "")) as (es & r' & D). do 2 eexists. econstructor. exact D.
  - destruct (IH (OError "")) as (es & r' & D). do 2 eexists. econstructor. exact D.
Qed.
Lemma does_done {A} (r : res A) es q : does (Done r) es q -> es = [] /\ q = Done r.
Proof. intros D. inversion D. auto. Qed.
Ltac ends := match goal with D : does (Done _) _ (Done _) |- _ => apply does_done in D as [-> D]; injection D as D; subst end.

Lemma code_protocol up c es r : does (code up c) es (Done r) -> protocol up c es r.
Proof.
  intros D. destruct c as [b u wm|b u|u|u resp|u|u]; cbn [code] in D.
  - unfold build_with_session_id, build_code in *. cbn [protocol]. destruct (rb_prepare up b u wm) as [[s d]|e] eqn:E.
    + cbn in D. inversion D; subst. ends. right. exists s, d, x. split; [reflexivity|]. split.
      * unfold build_with_session_id, build_code. rewrite E. apply prepare_inv in E as (U & _). cbn. now rewrite U.
      * destruct x as [[]|t]; [reflexivity|now exists t].
    + cbn in D. ends. left. exists e. split; [reflexivity|]. split; [now exists e|]. unfold build_with_session_id, build_code. now rewrite E.
  - unfold build_dc_api, build_dc_code in *. cbn [protocol]. destruct (rb_prepare_dc up b u) as [s|e] eqn:E.
    + cbn in D. inversion D; subst. ends. right. exists s, x. split; [reflexivity|]. split.
      * unfold build_dc_api, build_dc_code. rewrite E. assert (s_uuid s = u) as U.
        { unfold rb_prepare_dc in E. destruct (rb_complete up b u) as [[q ps]|]; [|discriminate]. cbn in E. destruct (aro_of_obj up ps); [|discriminate]. cbn in E.
          destruct (cl_jwt _ _); [|discriminate]. cbn in E. now injection E as <-. }
        cbn. now rewrite U.
      * destruct x as [[]|t]; [reflexivity|now exists t].
    + cbn in D. ends. left. exists e. split; [reflexivity|]. split; [now exists e|]. unfold build_dc_api, build_dc_code. now rewrite E.
  - cbn [protocol]. inversion D; subst. destruct x as [s|e]; cbn in *.
    + destruct (status_lt (s_status s) SentRequest) eqn:L.
      * match goal with D : does _ _ _ |- _ => cbn in D; inversion D; subst end. ends. right. right. exists s, x. split; [reflexivity|].
        split; [destruct (s_status s); now try discriminate L|]. destruct x as [[]|t]; [reflexivity|now exists t].
      * match goal with D : does (if _ then _ else _) _ _ |- _ => idtac | D : does _ ?es (Done r) |- _ => cbn in D end. ends. right. left. exists s. split; [reflexivity|]. split; [intros F; rewrite F in L; discriminate L|reflexivity].
    + ends. left. exists e. split; [reflexivity|]. now exists e.
  - cbn [protocol]. inversion D; subst. destruct x as [s|e]; cbn in *.
    + match goal with D : does _ _ _ |- _ => inversion D; subst end. match goal with D : does _ _ _ |- _ => cbn in D; inversion D; subst end. ends. right. exists s, o, x. split; [reflexivity|].
      destruct x as [[]|t]; [reflexivity|now exists t].
    + ends. left. exists e. split; [reflexivity|]. now exists e.
  - cbn [protocol]. inversion D; subst. cbn in *. ends. exists x. split; [reflexivity|]. destruct x as [s|e]; [reflexivity|now exists e].
  - cbn [protocol]. inversion D; subst. cbn in *. ends. exists x. split; [reflexivity|]. destruct x as [[]|e]; [reflexivity|now exists e].
Qed.

(* ------------------------------------------------------------ C116: what is asked of a store *)
Lemma events_snoc i j c e l : events_of i ((j, (c, e)) :: l) = if Nat.eqb j i then events_of i l ++ [e] else events_of i l.
Proof.
  unfold events_of. cbn [rev]. rewrite filter_app, map_app. cbn [filter fst]. destruct (Nat.eqb j i); cbn [map snd]; [reflexivity|apply app_nil_r].
Qed.
Lemma events_none i l : (forall c e, ~ In (i, (c, e)) l) -> events_of i l = [].
Proof.
  induction l as [|[j [c e]] l IH]; intros N; [reflexivity|]. rewrite events_snoc. destruct (Nat.eqb_spec j i) as [->|_]; [destruct (N c e); now left|].
  apply IH. intros c' e' I. apply (N c' e'). now right.
Qed.
(** What call [i] has done so far. *)
Definition did {S} up (y : any_sys S) (i : nat) (c : call) (p : prog answer) : Prop := does (code up c) (events_of i (an_log y)) p.
Record winv {S} up (y : any_sys S) : Prop := mk_winv {
  w_tasks : forall i c p, In (i, (c, p)) (an_tasks y) -> i < an_started y /\ did up y i c p /\ forall c' e, In (i, (c', e)) (an_log y) -> c' = c;
  w_apart : NoDup (map fst (an_tasks y));
  w_log : forall i c e, In (i, (c, e)) (an_log y) -> i < an_started y /\
    exists es p, does (code up c) es p /\ (events_of i (an_log y) = es \/ exists r, p = Done r /\ events_of i (an_log y) = es ++ [EvReturn r]
      /\ forall c' p', ~ In (i, (c', p')) (an_tasks y))
}.
Lemma nodup_mid {A B} (pre post : list (A * B)) i x : NoDup (map fst (pre ++ (i, x) :: post)) ->
  NoDup (map fst (pre ++ post)) /\ forall j y, In (j, y) (pre ++ post) -> j <> i.
Proof.
  rewrite !map_app. cbn [map fst]. intros N. apply NoDup_remove in N as [N I]. split; [exact N|].
  intros j y J ->. apply I. rewrite <- map_app. change i with (fst (i, y)). now apply in_map.
Qed.
Lemma in_cut {A} (x y : A) pre post : In x (pre ++ post) -> In x (pre ++ y :: post).
Proof. rewrite !in_app_iff. cbn. tauto. Qed.
Lemma in_uncut {A} (x y : A) pre post : In x (pre ++ y :: post) -> x = y \/ In x (pre ++ post).
Proof. rewrite !in_app_iff. cbn. intuition. Qed.
Lemma winv_step {S} up (st : session_store S) a b : winv up a -> any_step up S st a b -> winv up b.
Proof.
  intros [T N L] H. destruct H as [m n ts l c|m m' n pre i c p p' post l e Ha|m n pre i c r post l|m n pre i c p post l|m m' n ts l _];
    cbn [an_store an_started an_tasks an_log] in *.
  - assert (F : forall c e, ~ In (n, (c, e)) l) by (intros c' e' I; destruct (L _ _ _ I); lia).
    constructor; cbn [an_store an_started an_tasks an_log].
    + intros i c' p [E|I].
      * injection E as <- <- <-. split; [lia|]. split; [unfold did; cbn [an_log]; rewrite (events_none n l F); constructor|]. intros c' e' I. destruct (F _ _ I).
      * destruct (T _ _ _ I) as (? & ? & ?). split; [lia|auto].
    + cbn [map fst]. constructor; [|exact N]. intros I. apply in_map_iff in I as ([j [c' p]] & <- & I). destruct (T _ _ _ I). cbn in *. lia.
    + intros i c' e I. destruct (L _ _ _ I) as (B & es & p & D & O). split; [lia|]. exists es, p. split; [exact D|].
      destruct O as [O|(r & Pr & O & X)]; [now left|]. right. exists r. split; [exact Pr|]. split; [exact O|]. intros c'' p' [E|J]; [|now apply (X c'' p')].
      injection E as E _ _. lia.
  - destruct (nodup_mid _ _ _ _ N) as [Nd Ap]. destruct (T i c p) as (B & D & C); [apply in_mid; auto|].
    constructor; cbn [an_store an_started an_tasks an_log].
    + intros j c' q I. apply in_uncut in I as [E|I].
      * injection E as -> -> ->. split; [exact B|]. split.
        -- unfold did in *. cbn [an_log] in *. rewrite events_snoc, Nat.eqb_refl. now apply (does_snoc st _ p _ m m').
        -- intros c'' e' [E|I]; [congruence|now apply (C c'' e')].
      * destruct (T j c' q) as (Bj & Dj & Cj); [now apply in_cut|]. split; [exact Bj|]. pose proof (Ap _ _ I) as Ne. split.
        -- unfold did in *. cbn [an_log] in *. rewrite events_snoc. destruct (Nat.eqb_spec i j); [congruence|exact Dj].
        -- intros c'' e' [E|J]; [congruence|now apply (Cj c'' e')].
    + rewrite map_app in *. exact N.
    + intros j c' e' I. rewrite events_snoc. destruct (Nat.eqb_spec i j) as [<-|Ne].
      * split; [exact B|]. assert (c' = c) as -> by (destruct I as [E|I]; [congruence|now apply (C c' e')]).
        exists (events_of i l ++ [e]), p'. split; [now apply (does_snoc st _ p _ m m')|now left].
      * destruct I as [E|I]; [congruence|]. destruct (L _ _ _ I) as (Bj & es & q & Dj & O). split; [exact Bj|]. exists es, q. split; [exact Dj|].
        destruct O as [O|(r & Pr & O & X)]; [now left|]. right. exists r. split; [exact Pr|]. split; [exact O|]. intros c'' q' J. apply in_uncut in J as [E|J]; [congruence|].
        apply (X c'' q'). now apply in_cut.
  - destruct (nodup_mid _ _ _ _ N) as [Nd Ap]. destruct (T i c (Done r)) as (B & D & C); [apply in_mid; auto|].
    constructor; cbn [an_store an_started an_tasks an_log]; [|exact Nd|].
    + intros j c' q I. pose proof (Ap _ _ I) as Ne. destruct (T j c' q) as (Bj & Dj & Cj); [now apply in_cut|]. split; [exact Bj|]. split.
      * unfold did in *. cbn [an_log] in *. rewrite events_snoc. destruct (Nat.eqb_spec i j); [congruence|exact Dj].
      * intros c'' e' [E|J]; [congruence|now apply (Cj c'' e')].
    + intros j c' e' I. rewrite events_snoc. destruct (Nat.eqb_spec i j) as [<-|Ne].
      * split; [exact B|]. assert (c' = c) as -> by (destruct I as [E|I]; [congruence|now apply (C c' e')]).
        exists (events_of i l), (Done r). split; [exact D|]. right. exists r. split; [reflexivity|]. split; [reflexivity|]. intros c'' q J. now apply (Ap _ _ J).
      * destruct I as [E|I]; [congruence|]. destruct (L _ _ _ I) as (Bj & es & q & Dj & O). split; [exact Bj|]. exists es, q. split; [exact Dj|].
        destruct O as [O|(r' & Pr & O & X)]; [now left|]. right. exists r'. split; [exact Pr|]. split; [exact O|]. intros c'' q' J. apply (X c'' q'). now apply in_cut.
  - destruct (nodup_mid _ _ _ _ N) as [Nd Ap]. constructor; cbn [an_store an_started an_tasks an_log]; [|exact Nd|].
    + intros j c' q I. apply (T j c' q). now apply in_cut.
    + intros j c' e' I. destruct (L _ _ _ I) as (Bj & es & q & Dj & O). split; [exact Bj|]. exists es, q. split; [exact Dj|].
      destruct O as [O|(r' & Pr & O & X)]; [now left|]. right. exists r'. split; [exact Pr|]. split; [exact O|]. intros c'' q' J. apply (X c'' q'). now apply in_cut.
  - constructor; assumption.
Qed.
Lemma winv_reachable {S} up (st : session_store S) m0 y : any_reachable up S st m0 y -> winv up y.
Proof.
  intros R. induction R as [|a b R IH H]; [|eapply winv_step; eassumption]. constructor; cbn; [tauto|constructor|tauto].
Qed.

Lemma same_call up S st m0 y i c e c' e' : any_reachable up S st m0 y -> In (i, (c, e)) (an_log y) -> In (i, (c', e')) (an_log y) -> c' = c.
Proof.
  intros R. revert i c e c' e'. induction R as [|a b R IH H]; [intros i c e c' e' []|]. apply winv_reachable in R.
  destruct H as [m n ts l c0|m m' n pre j d p p' post l f Ha|m n pre j d r post l|m n pre j d p post l|m m' n ts l Ho]; cbn [an_log] in *; try exact IH.
  - destruct (w_tasks _ _ R j d p) as (_ & _ & C); [apply in_mid; auto|]. intros i c e c' e' [E|I] [E'|I']; [congruence| | |eapply IH; eassumption].
    + injection E as <- <- <-. now apply (C c' e').
    + injection E' as <- <- <-. symmetry. now apply (C c e).
  - destruct (w_tasks _ _ R j d (Done r)) as (_ & _ & C); [apply in_mid; auto|]. intros i c e c' e' [E|I] [E'|I']; [congruence| | |eapply IH; eassumption].
    + injection E as <- <- <-. now apply (C c' e').
    + injection E' as <- <- <-. symmetry. now apply (C c e).
Qed.

(** C116: whatever session store a verifier is given (one that fails, loses or invents sessions included) and however calls are
    interleaved and cancelled, each call asks of the store and of the validator exactly what its protocol says, in that order, stops early only by
    being cancelled, and returns what the protocol says. *)
Lemma c116_protocol_pf :
  forall (url_parse : string -> option url) (S : Type) (st : session_store S) (m0 : S) (y : any_sys S) (i : nat) (c : call) (e : event),
    any_reachable url_parse S st m0 y -> In (i, (c, e)) (an_log y) ->
    exists events rest result,
      protocol url_parse c (events ++ rest) result
      /\ (events_of i (an_log y) = events \/ rest = [] /\ events_of i (an_log y) = events ++ [EvReturn result])
      /\ forall c' e', In (i, (c', e')) (an_log y) -> c' = c.
Proof.
  intros up S st m0 y i c e R I. pose proof (fun c' e' => same_call up S st m0 y i c e c' e' R I) as Sc. apply winv_reachable in R. destruct (w_log _ _ R _ _ _ I) as (_ & es & p & D & [O|(r & -> & O & _)]).
  - destruct (finishes p) as (rest & r & F). exists es, rest, r. split; [apply code_protocol; eapply does_app; eassumption|]. split; [now left|exact Sc].
  - exists es, [], r. rewrite app_nil_r. split; [now apply code_protocol|]. split; [right; split; [reflexivity|exact O]|exact Sc].
Qed.

(* ------------------------------------------------------------ C116: the memory store stands for every store *)
(** Programs that differ only in the texts of errors. *)
Inductive alike {A} : prog A -> prog A -> Prop :=
| alike_done x y : same_but_texts x y -> alike (Done x) (Done y)
| alike_initiate s k k' : (forall x y, same_but_texts x y -> alike (k x) (k' y)) -> alike (Initiate s k) (Initiate s k')
| alike_update u v k k' : (forall x y, same_but_texts x y -> alike (k x) (k' y)) -> alike (Update u v k) (Update u v k')
| alike_get u k k' : (forall x y, same_but_texts x y -> alike (k x) (k' y)) -> alike (Get u k) (Get u k')
| alike_remove u k k' : (forall x y, same_but_texts x y -> alike (k x) (k' y)) -> alike (Remove u k) (Remove u k')
| alike_validate s r k k' : (forall o, alike (k o) (k' o)) -> alike (Validate s r k) (Validate s r k').
Lemma texts_refl {A} (x : res A) : same_but_texts x x.
Proof. now left. Qed.
Lemma texts_map {A B} (f : A -> B) x y : same_but_texts x y -> same_but_texts (rmap f x) (rmap f y).
Proof. intros [->|[(e & ->) (g & ->)]]; [apply texts_refl|]. right. split; cbn; eexists; reflexivity. Qed.
Lemma texts_err {A} e f : same_but_texts (@Err A e) (Err f).
Proof. right. split; eexists; reflexivity. Qed.
Lemma texts_ok {A} (a : A) y : same_but_texts (Ok a) y -> y = Ok a.
Proof. intros [<-|[(e & H) _]]; [reflexivity|discriminate H]. Qed.
Lemma alike_map {A B} (f : A -> B) p q : alike p q -> alike (pmap f p) (pmap f q).
Proof. intros H. induction H; cbn [pmap]; constructor; auto. now apply texts_map. Qed.
Lemma alike_code up c : alike (code up c) (code up c).
Proof.
  destruct c as [b u wm|b u|u|u r|u|u]; cbn [code]; apply alike_map.
  - unfold build_code. destruct (rb_prepare up b u wm) as [[s d]|e]; [|constructor; apply texts_refl]. constructor. intros x y E. constructor. now apply texts_map.
  - unfold build_dc_code. destruct (rb_prepare_dc up b u) as [s|e]; [|constructor; apply texts_refl]. constructor. intros x y E. constructor. now apply texts_map.
  - constructor. intros x y [<-|[(e & ->) (f & ->)]]; [|constructor; apply texts_err]. destruct x as [s|e]; [|constructor; apply texts_refl].
    destruct (status_lt (s_status s) SentRequest); [|constructor; apply texts_refl]. constructor. intros x y E. constructor. now apply texts_map.
  - constructor. intros x y [<-|[(e & ->) (f & ->)]]; [|constructor; apply texts_err]. destruct x as [s|e]; [|constructor; apply texts_refl].
    constructor. intros o. constructor. intros x y E. now constructor.
  - constructor. intros x y E. constructor. now apply texts_map.
  - constructor. intros x y E. now constructor.
Qed.

(** The memory store holds what the other store holds. *)
Definition mirrors {S} (look : S -> uuid -> option session) (m : S) (m0 : store) : Prop := ssorted m0 /\ forall u, st_get u m0 = look m u.
Lemma with_status_set s s' v : with_status s s' v -> s' = set_status s v.
Proof. destruct s, s'. unfold with_status, set_status. cbn. intros (-> & -> & -> & -> & ->). reflexivity. Qed.
Lemma act_matched {S A} (st : session_store S) look m m' (p p' q : prog A) e m0 :
  faithful st look -> mirrors look m m0 -> alike p q -> act_on st m p m' p' e ->
  exists m0' q' f, act m0 q m0' q' f /\ mirrors look m' m0' /\ alike p' q' /\ same_event e f.
Proof.
  intros F [So M] Al H. destruct H as [m m' s k x H|m m' u v k x H|m m' u k x H|m m' u k x H|m s r k o].
  - apply (fa_initiate _ _ F) in H. inversion Al as [|? ? k' K| | | |]; subst. destruct x as [[]|e].
    + exists (st_insert (s_uuid s) s m0), (k' (Ok tt)), (EvInitiate s (Ok tt)). split; [now apply (act_initiate m0 s k' false)|].
      destruct H as [H1 H2]. split; [|split; [apply K, texts_refl|split; [reflexivity|apply texts_refl]]]. split; [now apply ssorted_insert|].
      intros u. rewrite st_get_insert. destruct (N.eqb_spec u (s_uuid s)) as [->|Ne]; [now rewrite H1|now rewrite H2].
    + exists m0, (k' (Err "try_lock")), (EvInitiate s (Err "try_lock")). split; [now apply (act_initiate m0 s k' true)|].
      split; [|split; [apply K, texts_err|split; [reflexivity|apply texts_err]]]. split; [exact So|]. intros u. now rewrite M, H.
  - apply (fa_update _ _ F) in H. inversion Al as [| |? ? ? k' K| | |]; subst. destruct x as [[]|e].
    + destruct H as (s & s' & L & W & H1 & H2). apply with_status_set in W as ->.
      exists (st_insert u (set_status s v) m0), (k' (Ok tt)), (EvUpdate u v (Ok tt)).
      split; [apply (act_update m0 u v k' false); unfold update_status; now rewrite M, L|].
      split; [|split; [apply K, texts_refl|repeat split; apply texts_refl]]. split; [now apply ssorted_insert|].
      intros u'. rewrite st_get_insert. destruct (N.eqb_spec u' u) as [->|Ne]; [now rewrite H1|now rewrite H2].
    + exists m0, (k' (Err "try_lock")), (EvUpdate u v (Err "try_lock")). split; [now apply (act_update m0 u v k' true)|].
      split; [|split; [apply K, texts_err|repeat split; apply texts_err]]. split; [exact So|]. intros u'. now rewrite M, H.
  - apply (fa_get _ _ F) in H as [U H]. inversion Al as [| | |? ? k' K| |]; subst. destruct x as [s|e].
    + exists m0, (k' (Ok s)), (EvGet u (Ok s)).
      assert (G : get_session false u m0 = Ok s) by (unfold get_session; now rewrite M, H).
      split; [rewrite <- G; apply (act_get m0 u k' false)|]. split; [|split; [apply K, texts_refl|split; [reflexivity|apply texts_refl]]].
      split; [exact So|]. intros u'. now rewrite M, U.
    + exists m0, (k' (Err "try_lock")), (EvGet u (Err "try_lock")). split; [apply (act_get m0 u k' true)|].
      split; [|split; [apply K, texts_err|split; [reflexivity|apply texts_err]]]. split; [exact So|]. intros u'. now rewrite M, U.
  - apply (fa_remove _ _ F) in H. inversion Al as [| | | |? ? k' K|]; subst. destruct x as [[]|e].
    + destruct H as ((s & L) & H1 & H2).
      exists (st_remove u m0), (k' (Ok tt)), (EvRemove u (Ok tt)).
      split; [apply (act_remove m0 u k' false); unfold remove_session; now rewrite M, L|].
      split; [|split; [apply K, texts_refl|split; [reflexivity|apply texts_refl]]]. split; [now apply ssorted_remove|].
      intros u'. rewrite st_get_remove by exact So. destruct (N.eqb_spec u' u) as [->|Ne]; [now rewrite H1|now rewrite H2].
    + exists m0, (k' (Err "try_lock")), (EvRemove u (Err "try_lock")). split; [now apply (act_remove m0 u k' true)|].
      split; [|split; [apply K, texts_err|split; [reflexivity|apply texts_err]]]. split; [exact So|]. intros u'. now rewrite M, H.
  - inversion Al as [| | | | |? ? ? k' K]; subst. exists m0, (k' o), (EvValidate s r o). split; [constructor|]. split; [now split|]. split; [apply K|repeat split].
Qed.

(** The tasks of the two systems. *)
Definition paired (t : nat * (call * prog answer)) (t' : call * prog answer) : Prop := fst (snd t) = fst t' /\ alike (snd (snd t)) (snd t').
Lemma paired_mid pre post i c p ts : Forall2 paired (pre ++ (i, (c, p)) :: post) ts ->
  exists pre' q post', ts = pre' ++ (c, q) :: post' /\ Forall2 paired pre pre' /\ Forall2 paired post post' /\ alike p q.
Proof.
  intros H. apply Forall2_app_inv_l in H as (pre' & r & P & H & ->). inversion H as [|x y l l' E R]; subst. destruct y as [c' q], E as [E Al]. cbn in E, Al. subst c'.
  exists pre', q, l'. auto.
Qed.
(** Sessions disappear from the memory store by removals. *)
Lemma vanish up (P : uuid -> Prop) (m : store) ts l (dec : forall u, {P u} + {~ P u}) : ssorted m -> forall us,
  reachable up (mk_sys m ts l) -> (forall u s, st_get u m = Some s -> P u -> In u us) ->
  exists m' l', reachable up (mk_sys m' ts (l' ++ l)) /\ ssorted m' /\ (forall u, st_get u m' = if dec u then None else st_get u m)
    /\ forall k, matches k l -> matches k (l' ++ l).
Proof.
  intros So us. revert m l So. induction us as [|u us IH]; intros m l So R Cov.
  - exists m, []. split; [exact R|]. split; [exact So|]. split; [|auto]. intros u. destruct (dec u) as [D|D]; [|reflexivity].
    destruct (st_get u m) as [s|] eqn:G; [destruct (Cov _ _ G D)|reflexivity].
  - destruct (dec u) as [D|D].
    + destruct (st_get u m) as [s|] eqn:G.
      * assert (R1 : reachable up (mk_sys (st_remove u m) ts ((CRemove u, EvReturn (Ok ANothing)) :: (CRemove u, EvRemove u (Ok tt)) :: l))).
        { eapply steps_snoc; [eapply steps_snoc; [eapply steps_snoc; [exact R|apply (step_start up m ts l (CRemove u))]|]|].
          - apply (step_act up m (st_remove u m) [] (CRemove u) (code up (CRemove u)) (Done (Ok ANothing)) ts l (EvRemove u (Ok tt))).
            refine (act_remove m u (fun x => pmap (fun _ => ANothing) (Done x)) false (st_remove u m) (Ok tt) _). unfold remove_session. now rewrite G.
          - apply (step_return up (st_remove u m) [] (CRemove u) (Ok ANothing) ts). }
        destruct (IH (st_remove u m) ((CRemove u, EvReturn (Ok ANothing)) :: (CRemove u, EvRemove u (Ok tt)) :: l)) as (m' & l' & R' & So' & G' & Fl); [now apply ssorted_remove|exact R1| |].
        { intros v s' Gv Pv. rewrite st_get_remove in Gv by exact So. destruct (N.eqb_spec v u) as [->|Ne]; [discriminate|]. destruct (Cov _ _ Gv Pv); [congruence|assumption]. }
        exists m', (l' ++ [(CRemove u, EvReturn (Ok ANothing)); (CRemove u, EvRemove u (Ok tt))]). rewrite <- app_assoc. split; [exact R'|]. split; [exact So'|]. split.
        -- intros v. rewrite G', st_get_remove by exact So. destruct (dec v); [reflexivity|]. destruct (N.eqb_spec v u) as [->|Ne]; [contradiction|reflexivity].
        -- intros k Mk. apply Fl. now constructor.
      * apply (IH m l So R). intros v s Gv Pv. destruct (Cov _ _ Gv Pv) as [<-|I]; [congruence|exact I].
    + apply (IH m l So R). intros v s Gv Pv. destruct (Cov _ _ Gv Pv) as [<-|I]; [contradiction|exact I].
Qed.

Lemma sim_step {S} up (st : session_store S) look a b m0 ts l0 : faithful st look -> any_step up S st a b ->
  reachable up (mk_sys m0 ts l0) -> mirrors look (an_store a) m0 -> Forall2 paired (an_tasks a) ts -> matches (an_log a) l0 ->
  exists m1 ts1 l1, reachable up (mk_sys m1 ts1 l1) /\ mirrors look (an_store b) m1 /\ Forall2 paired (an_tasks b) ts1 /\ matches (an_log b) l1.
Proof.
  intros F H R M T L. destruct H as [m n tl l c|m m' n pre i c p p' post l e Ha|m n pre i c r post l|m n pre i c p post l|m m' n tl l Ho];
    cbn [an_store an_started an_tasks an_log] in *.
  - exists m0, ((c, code up c) :: ts), l0. split; [eapply steps_snoc; [exact R|apply step_start]|]. split; [exact M|]. split; [|exact L].
    constructor; [|exact T]. split; [reflexivity|apply alike_code].
  - apply paired_mid in T as (pre' & q & post' & -> & T1 & T2 & Al). destruct (act_matched st look m m' p p' q e m0 F M Al Ha) as (m1 & q' & f & A & M' & Al' & E).
    exists m1, (pre' ++ (c, q') :: post'), ((c, f) :: l0). split; [eapply steps_snoc; [exact R|now apply step_act]|]. split; [exact M'|]. split; [|now constructor].
    apply Forall2_app; [exact T1|]. constructor; [now split|exact T2].
  - apply paired_mid in T as (pre' & q & post' & -> & T1 & T2 & Al). inversion Al as [x y E| | | | |]; subst.
    exists m0, (pre' ++ post'), ((c, EvReturn y) :: l0). split; [eapply steps_snoc; [exact R|apply step_return]|]. split; [exact M|]. split; [now apply Forall2_app|now constructor].
  - apply paired_mid in T as (pre' & q & post' & -> & T1 & T2 & Al).
    exists m0, (pre' ++ post'), l0. split; [eapply steps_snoc; [exact R|apply step_drop]|]. split; [exact M|]. split; [now apply Forall2_app|exact L].
  - destruct M as [So M]. pose proof (fa_other _ _ F _ _ Ho) as O.
    assert (dec : forall u, {look m' u = None} + {look m' u <> None}) by (intros u; destruct (look m' u); [now right|now left]).
    destruct (vanish up (fun u => look m' u = None) m0 ts l0 dec So (map fst m0) R) as (m1 & l1 & R1 & So1 & G1 & X).
    { intros u s G _. apply st_get_in in G. change u with (fst (u, s)). now apply in_map. }
    exists m1, ts, (l1 ++ l0). split; [exact R1|]. split; [|split; [exact T|now apply X]]. split; [exact So1|].
    intros u. rewrite G1, M. destruct (dec u) as [->|D]; [reflexivity|]. destruct (O u) as [->|E]; [reflexivity|contradiction].
Qed.

(** C116: a verifier with any session store that keeps sessions, lets them expire and fails as it likes behaves as one with the memory store:
    every history of it is, but for the texts of errors, a history of a verifier with the memory store in which the expired sessions were
    removed; and then the two stores hold the same sessions. *)
Lemma c116_any_store_pf :
  forall (url_parse : string -> option url) (S : Type) (st : session_store S) (look : S -> uuid -> option session) (m0 : S) (y : any_sys S),
    faithful st look -> (forall u, look m0 u = None) -> any_reachable url_parse S st m0 y ->
    exists y', reachable url_parse y' /\ (forall u, st_get u (sy_store y') = look (an_store y) u) /\ matches (an_log y) (sy_log y')
      /\ map (fun t => fst (snd t)) (an_tasks y) = map fst (sy_tasks y').
Proof.
  intros up S st look m0 y F E R.
  assert (exists m ts l, reachable up (mk_sys m ts l) /\ mirrors look (an_store y) m /\ Forall2 paired (an_tasks y) ts /\ matches (an_log y) l) as (m & ts & l & R' & [_ M] & T & L).
  { induction R as [|a b R IH H].
    - exists [], [], []. split; [apply steps_refl|]. split; [|split; constructor]. split; [constructor|]. intros u. cbn. now rewrite E.
    - destruct IH as (m & ts & l & R' & M & T & L). eapply sim_step; eassumption. }
  exists (mk_sys m ts l). split; [exact R'|]. split; [exact M|]. split; [exact L|]. cbn [sy_tasks]. clear -T. induction T as [|t t' ts ts' [P _] T IH]; cbn [map]; congruence.
Qed.

(* ------------------------------------------------------------ C116: stores that invent nothing *)
Ltac prefix := match goal with P : ?events ++ ?rest = _ |- _ =>
  let e1 := fresh "e1" in let e2 := fresh "e2" in let e3 := fresh "e3" in let e4 := fresh "e4" in let more := fresh "more" in
  destruct events as [|e1 [|e2 [|e3 [|e4 more]]]]; cbn [app] in P; try discriminate P; try (injection P; clear P; intros); subst; cbn [In] in * end.
Ltac oneof J := first [discriminate J|contradiction J|destruct J as [J|J]; oneof J|idtac].
Section Invents.
Variable up : string -> option url.
Variable S : Type.
Variable st : session_store S.
Variable m0 : S.
Lemma in_events i e l : In e (events_of i l) <-> exists c, In (i, (c, e)) l.
Proof.
  unfold events_of. rewrite in_map_iff. split.
  - intros ([j [c f]] & <- & I). apply filter_In in I as [I E]. apply Nat.eqb_eq in E. cbn in E. subst j. exists c. now apply in_rev.
  - intros (c & I). exists (i, (c, e)). split; [reflexivity|]. apply filter_In. split; [now apply -> in_rev|]. apply Nat.eqb_refl.
Qed.
Lemma followed y i c e : any_reachable up S st m0 y -> In (i, (c, e)) (an_log y) -> exists events rest result,
  protocol up c (events ++ rest) result /\ (In e events \/ rest = [] /\ e = EvReturn result) /\ (forall f, In f events -> In (i, (c, f)) (an_log y)).
Proof.
  intros R I. destruct (c116_protocol_pf up S st m0 y i c e R I) as (es & rest & r & P & O & _). exists es, rest, r. split; [exact P|].
  assert (J : In e (events_of i (an_log y))) by (apply in_events; now exists c).
  assert (K : forall f, In f (events_of i (an_log y)) -> In (i, (c, f)) (an_log y)).
  { intros f F. apply in_events in F as (c' & F). now rewrite (same_call up S st m0 y i c e c' f R I F) in F. }
  destruct O as [O|[-> O]]; rewrite O in J, K.
  - split; [now left|exact K].
  - split; [|intros f F; apply K; apply in_app_iff; now left]. apply in_app_iff in J as [J|[J|[]]]; auto.
Qed.
Lemma asked_update y i c u v x : any_reachable up S st m0 y -> In (i, (c, EvUpdate u v x)) (an_log y) ->
  v = SentRequest \/ exists r s o, c = CVerify u r /\ v = Complete o /\ In (i, (c, EvGet u (Ok s))) (an_log y) /\ In (i, (c, EvValidate s r o)) (an_log y).
Proof.
  intros R I. destruct (followed _ _ _ _ R I) as (es & rest & r & P & [J|[_ J]] & K); [|discriminate J].
  destruct c as [b w wm|b w|w|w resp|w|w]; cbn [protocol] in P.
  - destruct P as [(t & P & _)|(s & d & t & P & _)]; prefix; cbn in J; oneof J.
  - destruct P as [(t & P & _)|(s & t & P & _)]; prefix; cbn in J; oneof J.
  - destruct P as [(t & P & _)|[(s & P & _)|(s & t & P & _)]]; prefix; cbn in J; oneof J. left. congruence.
  - destruct P as [(t & P & _)|(s & o & t & P & _)]; prefix; cbn in J; oneof J.
    right. injection J as -> <- ->.
    exists resp, s, o. split; [reflexivity|]. split; [reflexivity|]. split; apply K; cbn; auto.
  - destruct P as (t & P & _). prefix; cbn in J; oneof J.
  - destruct P as (t & P & _). prefix; cbn in J; oneof J.
Qed.
Lemma asked_initiate y i c s x : any_reachable up S st m0 y -> In (i, (c, EvInitiate s x)) (an_log y) ->
  builds c (s_uuid s) /\ (s_status s = SentRequest \/ s_status s = SentRequestByReference).
Proof.
  intros R I. destruct (followed _ _ _ _ R I) as (es & rest & r & P & [J|[_ J]] & K); [|discriminate J].
  destruct c as [b w wm|b w|w|w resp|w|w]; cbn [protocol] in P.
  - destruct P as [(t & P & _)|(s' & d & t & P & B & _)]; prefix; cbn in J; oneof J.
    injection J as -> _.
    destruct (c29_build_pf _ _ _ _ _ _ _ _ B) as (s1 & ind & ep & G & _ & U & _ & _ & _ & Cv & _). cbn in G. rewrite N.eqb_refl in G. injection G as <-. split; [left; exists b, wm; now rewrite U|].
    unfold conveyed in Cv. destruct (v_byref (rb_verifier b)); [destruct Cv as (? & _ & _ & Cv); now right|destruct Cv as [_ Cv]; now left].
  - destruct P as [(t & P & _)|(s' & t & P & B & _)]; prefix; cbn in J; oneof J.
    injection J as -> _.
    destruct (c29_build_dc_api_pf _ _ _ _ _ _ _ _ B) as (_ & s1 & G & _ & U & _ & St & _). cbn in G. rewrite N.eqb_refl in G. injection G as <-. split; [right; exists b; now rewrite U|now left].
  - destruct P as [(t & P & _)|[(s' & P & _)|(s' & t & P & _)]]; prefix; cbn in J; oneof J.
  - destruct P as [(t & P & _)|(s' & o & t & P & _)]; prefix; cbn in J; oneof J.
  - destruct P as (t & P & _). prefix; cbn in J; oneof J.
  - destruct P as (t & P & _). prefix; cbn in J; oneof J.
Qed.
Lemma asked_validate y i u r s r' o : any_reachable up S st m0 y -> In (i, (CVerify u r, EvValidate s r' o)) (an_log y) -> r' = r /\ In (i, (CVerify u r, EvGet u (Ok s))) (an_log y).
Proof.
  intros R I. destruct (followed _ _ _ _ R I) as (es & rest & x & P & [J|[_ J]] & K); [|discriminate J]. cbn [protocol] in P.
  destruct P as [(t & P & _)|(s' & o' & t & P & _)]; prefix; cbn in J; oneof J;
    (injection J as -> <- _; split; [reflexivity|apply K; cbn; auto]).
Qed.
Lemma asked_poll y i u v : any_reachable up S st m0 y -> In (i, (CPoll u, EvReturn (Ok (AStatus v)))) (an_log y) ->
  exists s, In (i, (CPoll u, EvGet u (Ok s))) (an_log y) /\ s_status s = v.
Proof.
  intros R I. destruct (followed _ _ _ _ R I) as (es & rest & x & P & J & K). cbn [protocol] in P. destruct P as (t & P & X).
  destruct J as [J|[-> J]]; [prefix; cbn in J; oneof J|]. rewrite app_nil_r in P. subst es. injection J as <-.
  destruct t as [s|e]; [|destruct X; discriminate]. injection X as X. exists s. split; [apply K; now left|now symmetry].
Qed.
Lemma asked_retrieve y i u jwt : any_reachable up S st m0 y -> In (i, (CRetrieve u, EvReturn (Ok (AJwt jwt)))) (an_log y) ->
  exists s, In (i, (CRetrieve u, EvGet u (Ok s))) (an_log y) /\ s_jwt s = jwt.
Proof.
  intros R I. destruct (followed _ _ _ _ R I) as (es & rest & x & P & J & K). cbn [protocol] in P.
  destruct J as [J|[-> J]]; [destruct P as [(t & P & _)|[(s' & P & _)|(s' & t & P & _)]]; prefix; cbn in J; oneof J|]. rewrite app_nil_r in P. injection J as <-.
  destruct P as [(t & -> & (e & X))|[(s & -> & _ & X)|(s & t & -> & _ & X)]].
  - discriminate X.
  - injection X as X. exists s. split; [apply K; now left|now symmetry].
  - destruct t as [[]|e]; [|destruct X; discriminate]. injection X as X. exists s. split; [apply K; now left|now symmetry].
Qed.

Variable shows : S -> uuid -> session -> Prop.
Hypothesis NI : invents_nothing st shows.
Hypothesis Start : forall u s, ~ shows m0 u s.
(** Where what the store shows comes from. *)
Definition sourced (l : list (nat * (call * event))) (u : uuid) (s : session) : Prop :=
  (exists i c s0 x, In (i, (c, EvInitiate s0 x)) l /\ s_uuid s0 = u /\ same_session s0 s)
  /\ forall o, s_status s = Complete o -> exists k r s1, In (k, (CVerify u r, EvGet u (Ok s1))) l /\ In (k, (CVerify u r, EvValidate s1 r o)) l.
Lemma sourced_more e l u s : sourced l u s -> sourced (e :: l) u s.
Proof.
  intros [(i & c & s0 & x & I & U & E) V]. split; [exists i, c, s0, x; split; [now right|auto]|].
  intros o O. destruct (V o O) as (k & r & s1 & G & W). exists k, r, s1. split; now right.
Qed.
Lemma all_sourced y : any_reachable up S st m0 y -> (forall u s, shows (an_store y) u s -> sourced (an_log y) u s) /\ forall i c u s, In (i, (c, EvGet u (Ok s))) (an_log y) -> sourced (an_log y) u s.
Proof.
  intros R. induction R as [|a b R [IH IG] H].
  - split; [intros u s X; destruct (Start _ _ X)|intros i c u s []].
  - assert (R' : any_reachable up S st m0 b) by (eapply any_next; eassumption).
    destruct H as [m n ts l c0|m m' n pre j d p p' post l f Ha|m n pre j d r post l|m n pre j d p post l|m m' n ts l Ho]; cbn [an_log an_store] in *.
    + now split.
    + assert (Sh : forall u s, shows m' u s -> sourced ((j, (d, f)) :: l) u s).
      { intros u s X. destruct Ha as [m m' s0 k x H|m m' w v k x H|m m' w k x H|m m' w k x H|m s0 r k o].
        - destruct (no_initiate _ _ NI _ _ _ _ _ _ H X) as [Y|[-> ->]]; [apply sourced_more; now apply IH|]. split.
          + exists j, d, s0, x. split; [now left|]. split; [reflexivity|]. repeat split.
          + intros o O. destruct (asked_initiate _ j d s0 x R') as [_ [E|E]]; [now left|congruence|congruence].
        - destruct (no_update _ _ NI _ _ _ _ _ _ _ H X) as [Y|[-> (s1 & Y & (W1 & W2 & W3 & W4 & W5))]]; [apply sourced_more; now apply IH|].
          destruct (IH _ _ Y) as [(i & c & s0 & z & I & U & (E1 & E2 & E3 & E4)) _]. split.
          + exists i, c, s0, z. split; [now right|]. split; [exact U|]. repeat split; congruence.
          + intros o O. destruct (asked_update _ j d w v x R') as [E|(r & s2 & o' & -> & E & G & V)]; [now left|congruence|]. exists j, r, s2. split; [exact G|]. now replace o with o' by congruence.
        - apply sourced_more. apply IH. now apply (proj2 (no_get _ _ NI _ _ _ _ H)).
        - apply sourced_more. apply IH. now apply (no_remove _ _ NI _ _ _ _ _ _ H).
        - apply sourced_more. now apply IH. }
      split; [exact Sh|]. intros i c u s [E|I]; [|apply sourced_more; now apply (IG i c)]. injection E as -> -> ->.
      inversion Ha; subst. apply sourced_more. apply IH.
      match goal with H : ss_get st u m m' _ |- _ => now apply (proj1 (no_get _ _ NI _ _ _ _ H)) end.
    + split; [intros u s X; apply sourced_more; now apply IH|]. intros i c u s [E|I]; [discriminate E|]. apply sourced_more. now apply (IG i c).
    + now split.
    + split; [|exact IG]. intros u s X. apply IH. now apply (no_other _ _ NI _ _ _ _ Ho).
Qed.
End Invents.

(** C116: with every store that invents nothing, a poll reports an outcome only after a call received that session, had a response to it
    validated and got that outcome; a fetched request was built for that session; and a validator is only given a session that was built under
    the identifier the response came for, unchanged but for its status. *)
Lemma c116_trusted_pf :
  forall (url_parse : string -> option url) (S : Type) (st : session_store S) (shows : S -> uuid -> session -> Prop) (m0 : S) (y : any_sys S) (u : uuid),
    invents_nothing st shows -> (forall u s, ~ shows m0 u s) -> any_reachable url_parse S st m0 y ->
    (forall i o, In (i, (CPoll u, EvReturn (Ok (AStatus (Complete o))))) (an_log y) ->
       exists k response s, In (k, (CVerify u response, EvGet u (Ok s))) (an_log y) /\ In (k, (CVerify u response, EvValidate s response o)) (an_log y))
    /\ (forall i jwt, In (i, (CRetrieve u, EvReturn (Ok (AJwt jwt)))) (an_log y) ->
       exists j c s answer, In (j, (c, EvInitiate s answer)) (an_log y) /\ builds c u /\ s_uuid s = u /\ s_jwt s = jwt)
    /\ (forall i response s given o, In (i, (CVerify u response, EvValidate s given o)) (an_log y) ->
       given = response /\ exists j c s0 answer, In (j, (c, EvInitiate s0 answer)) (an_log y) /\ builds c u /\ s_uuid s0 = u /\ same_session s0 s).
Proof.
  intros up S st shows m0 y u NI Start R. destruct (all_sourced up S st m0 shows NI Start y R) as [_ G]. split; [|split].
  - intros i o I. destruct (asked_poll _ _ _ _ _ _ _ _ R I) as (s & J & E). now apply (proj2 (G _ _ _ _ J)).
  - intros i jwt I. destruct (asked_retrieve _ _ _ _ _ _ _ _ R I) as (s & J & E). destruct (proj1 (G _ _ _ _ J)) as (j & c & s0 & x & K & U & (_ & E2 & _)).
    exists j, c, s0, x. split; [exact K|]. destruct (asked_initiate _ _ _ _ _ _ _ _ _ R K) as [B _]. rewrite U in B. split; [exact B|]. split; [exact U|congruence].
  - intros i r s g o I. destruct (asked_validate _ _ _ _ _ _ _ _ _ _ _ R I) as [-> J]. split; [reflexivity|]. destruct (proj1 (G _ _ _ _ J)) as (j & c & s0 & x & K & U & E).
    exists j, c, s0, x. split; [exact K|]. destruct (asked_initiate _ _ _ _ _ _ _ _ _ R K) as [B _]. rewrite U in B. split; [exact B|]. split; [exact U|exact E].
Qed.

(* ------------------------------------------------------------ examples *)
(** A store that only ever appends: a journal of what each session is from then on (newest first).  Sessions expire by themselves, and a journal
    of a hundred entries is full. *)
Fixpoint last_entry (u : uuid) (j : list (uuid * option session)) : option session :=
  match j with [] => None | (v, x) :: r => if (u =? v)%N then x else last_entry u r end.
Definition appended (u : uuid) (x : option session) (j j' : list (uuid * option session)) (answer : res unit) : Prop :=
  (length j < 100 /\ j' = (u, x) :: j /\ answer = Ok tt) \/ (100 <= length j /\ j' = j /\ answer = Err "journal is full").
Definition journal : session_store (list (uuid * option session)) := mk_ss
  (fun s j j' x => appended (s_uuid s) (Some s) j j' x)
  (fun u v j j' x => match last_entry u j with Some s => appended u (Some (set_status s v)) j j' x | None => j' = j /\ x = Err "unknown" end)
  (fun u j j' x => j' = j /\ x = ok_or (last_entry u j) "unknown")
  (fun u j j' x => match last_entry u j with Some _ => appended u None j j' x | None => j' = j /\ x = Err "unknown" end)
  (fun j j' => exists u, j' = (u, None) :: j).
Lemma sets_entry j j' u x a : appended u x j j' a -> match a with Ok _ => sets (fun j u => last_entry u j) j j' u x | Err _ => unchanged (fun j u => last_entry u j) j j' end.
Proof.
  intros [(_ & -> & ->)|(_ & -> & ->)]; [|intros v; reflexivity]. split; cbn; [now rewrite N.eqb_refl|]. intros v Ne. now destruct (N.eqb_spec v u).
Qed.
Lemma journal_faithful : faithful journal (fun j u => last_entry u j).
Proof.
  constructor; cbn.
  - intros s j j' x H. now apply sets_entry in H.
  - intros u v j j' x H. destruct (last_entry u j) as [s|] eqn:E; [|destruct H as [-> ->]; intros w; reflexivity]. apply sets_entry in H. destruct x; [|exact H].
    exists s, (set_status s v). repeat split; apply H.
  - intros u j j' x [-> ->]. split; [intros v; reflexivity|]. now destruct (last_entry u j).
  - intros u j j' x H. destruct (last_entry u j) as [s|] eqn:E; [|destruct H as [-> ->]; intros w; reflexivity]. apply sets_entry in H. destruct x; [|exact H]. split; [now exists s|exact H].
  - intros j j' (u & ->) v. cbn. destruct (v =? u)%N; auto.
Qed.
(** A request is built, answered with "no", polled; then the session expires and is not found any more. *)
Lemma journal_run : exists s d, s_uuid s = 7%N /\ s_status s = SentRequestByReference /\ any_reachable simple_parse _ journal [] (mk_any
  [(7%N, None); (7%N, Some (set_status s (Complete (OFailure "no")))); (7%N, Some s)] 4 []
  [(3, (CPoll 7%N, EvReturn (Err "unknown"))); (3, (CPoll 7%N, EvGet 7%N (Err "unknown")));
   (2, (CPoll 7%N, EvReturn (Ok (AStatus (Complete (OFailure "no")))))); (2, (CPoll 7%N, EvGet 7%N (Ok (set_status s (Complete (OFailure "no"))))));
   (1, (CVerify 7%N (Jwt "x"), EvReturn (Ok ANothing))); (1, (CVerify 7%N (Jwt "x"), EvUpdate 7%N (Complete (OFailure "no")) (Ok tt)));
   (1, (CVerify 7%N (Jwt "x"), EvValidate s (Jwt "x") (OFailure "no"))); (1, (CVerify 7%N (Jwt "x"), EvGet 7%N (Ok s)));
   (0, (toy_build true, EvReturn (Ok (AUrl d)))); (0, (toy_build true, EvInitiate s (Ok tt)))]).
Proof.
  destruct (toy_prepared true) as (s & d & E & U & St). exists s, d. split; [exact U|]. split; [exact St|].
  assert (Code : code simple_parse (toy_build true) = Initiate s (fun x => Done (rmap AUrl (rmap (fun _ => d) x)))) by (unfold toy_build, code, build_code; rewrite E; reflexivity).
  eapply any_next; [eapply any_next; [eapply any_next; [eapply any_next; [eapply any_next; [eapply any_next; [eapply any_next; [eapply any_next; [eapply any_next; [eapply any_next; [eapply any_next; [eapply any_next;
    [eapply any_next; [eapply any_next; [eapply any_next; [apply any_init|]|]|]|]|]|]|]|]|]|]|]|]|]|]|].
  - apply (any_start _ _ _ [] 0 [] [] (toy_build true)).
  - rewrite Code. apply (any_act _ _ _ _ [(7%N, Some s)] 1 [] 0 (toy_build true) _ (Done (Ok (AUrl d))) [] [] (EvInitiate s (Ok tt))).
    apply (on_initiate journal [] [(7%N, Some s)] s (fun x => Done (rmap AUrl (rmap (fun _ => d) x))) (Ok tt)). left. cbn. rewrite U. split; [lia|auto].
  - apply (any_return _ _ _ _ _ [] 0 (toy_build true) _ []).
  - apply (any_start _ _ _ _ 1 [] _ (CVerify 7%N (Jwt "x"))).
  - eapply (any_act _ _ _ [(7%N, Some s)] [(7%N, Some s)] 2 [] 1 (CVerify 7%N (Jwt "x")) _ _ [] _ (EvGet 7%N (Ok s))).
    apply on_get. split; reflexivity.
  - eapply (any_act _ _ _ _ _ 2 [] 1 (CVerify 7%N (Jwt "x")) _ _ [] _ (EvValidate s (Jwt "x") (OFailure "no"))). apply on_validate.
  - eapply (any_act _ _ _ _ [(7%N, Some (set_status s (Complete (OFailure "no")))); (7%N, Some s)] 2 [] 1 (CVerify 7%N (Jwt "x")) _ _ [] _ (EvUpdate 7%N (Complete (OFailure "no")) (Ok tt))).
    apply on_update. cbn. left. split; [cbn; lia|auto].
  - apply (any_return _ _ _ _ _ [] 1 (CVerify 7%N (Jwt "x")) _ []).
  - apply (any_start _ _ _ _ 2 [] _ (CPoll 7%N)).
  - eapply (any_act _ _ _ _ _ 3 [] 2 (CPoll 7%N) _ _ [] _ (EvGet 7%N (Ok (set_status s (Complete (OFailure "no")))))). apply on_get. split; reflexivity.
  - apply (any_return _ _ _ _ _ [] 2 (CPoll 7%N) _ []).
  - apply any_other. exists 7%N. reflexivity.
  - apply (any_start _ _ _ _ 3 [] _ (CPoll 7%N)).
  - eapply (any_act _ _ _ _ _ 4 [] 3 (CPoll 7%N) _ _ [] _ (EvGet 7%N (Err "unknown"))). apply on_get. split; reflexivity.
  - apply (any_return _ _ _ _ _ [] 3 (CPoll 7%N) _ []).
Qed.
Example c116_protocol_ex : exists y s, any_reachable simple_parse _ journal [] y
  /\ In (3, (CPoll 7%N, EvGet 7%N (Err "unknown"))) (an_log y)
  /\ events_of 3 (an_log y) = [EvGet 7%N (Err "unknown"); EvReturn (Err "unknown")]
  /\ events_of 1 (an_log y) = [EvGet 7%N (Ok s); EvValidate s (Jwt "x") (OFailure "no"); EvUpdate 7%N (Complete (OFailure "no")) (Ok tt); EvReturn (Ok ANothing)].
Proof.
  destruct journal_run as (s & d & _ & _ & R). eexists. exists s. split; [exact R|]. split; [right; now left|]. split; reflexivity.
Qed.
Example c116_any_store_ex : exists y, faithful journal (fun j u => last_entry u j) /\ (forall u, last_entry u [] = None)
  /\ any_reachable simple_parse _ journal [] y /\ length (an_log y) = 10 /\ last_entry 7%N (an_store y) = None.
Proof.
  destruct journal_run as (s & d & _ & _ & R). eexists. split; [exact journal_faithful|]. split; [reflexivity|]. split; [exact R|]. split; reflexivity.
Qed.
(** A store that reports what it likes: it may answer with any version it ever had, do what it reports as failed, or not do what it reports as done. *)
Definition sloppy : session_store (list (uuid * session)) := mk_ss
  (fun s m m' _ => m' = m \/ m' = (s_uuid s, s) :: m)
  (fun u v m m' _ => m' = m \/ exists s, In (u, s) m /\ m' = (u, set_status s v) :: m)
  (fun u m m' x => m' = m /\ match x with Ok s => In (u, s) m | Err _ => True end)
  (fun _ m m' _ => incl m' m)
  (fun m m' => incl m' m).
Lemma sloppy_invents_nothing : invents_nothing sloppy (fun m u s => In (u, s) m).
Proof.
  constructor; cbn.
  - intros s m m' x u s' [->| ->] I; [now left|]. destruct I as [E|I]; [right; now injection E as <- <-|now left].
  - intros u v m m' x u' s' [->|(s & J & ->)] I; [now left|]. destruct I as [E|I]; [|now left]. injection E as <- <-. right. split; [reflexivity|]. exists s. split; [exact J|]. repeat split.
  - intros u m m' x [-> X]. split; [intros s ->; exact X|auto].
  - intros u m m' x u' s' H. apply H.
  - intros m m' u s H. apply H.
Qed.
(** A request is stored although the store said otherwise, and so is the outcome "no"; a poll shows it, and the request can be fetched. *)
Lemma sloppy_run : exists s, any_reachable simple_parse _ sloppy [] (mk_any [(7%N, set_status s (Complete (OFailure "no"))); (7%N, s)] 4 []
  [(3, (CRetrieve 7%N, EvReturn (Ok (AJwt (s_jwt s))))); (3, (CRetrieve 7%N, EvGet 7%N (Ok (set_status s (Complete (OFailure "no"))))));
   (2, (CPoll 7%N, EvReturn (Ok (AStatus (Complete (OFailure "no")))))); (2, (CPoll 7%N, EvGet 7%N (Ok (set_status s (Complete (OFailure "no"))))));
   (1, (CVerify 7%N (Jwt "x"), EvReturn (Err "timeout"))); (1, (CVerify 7%N (Jwt "x"), EvUpdate 7%N (Complete (OFailure "no")) (Err "timeout")));
   (1, (CVerify 7%N (Jwt "x"), EvValidate s (Jwt "x") (OFailure "no"))); (1, (CVerify 7%N (Jwt "x"), EvGet 7%N (Ok s)));
   (0, (toy_build true, EvReturn (Err "timeout"))); (0, (toy_build true, EvInitiate s (Err "timeout")))]).
Proof.
  destruct (toy_prepared true) as (s & d & E & U & St). exists s.
  assert (Code : code simple_parse (toy_build true) = Initiate s (fun x => Done (rmap AUrl (rmap (fun _ => d) x)))) by (unfold toy_build, code, build_code; rewrite E; reflexivity).
  eapply any_next; [eapply any_next; [eapply any_next; [eapply any_next; [eapply any_next; [eapply any_next; [eapply any_next; [eapply any_next; [eapply any_next; [eapply any_next; [eapply any_next; [eapply any_next;
    [eapply any_next; [eapply any_next; [apply any_init|]|]|]|]|]|]|]|]|]|]|]|]|]|].
  - apply (any_start _ _ _ [] 0 [] [] (toy_build true)).
  - rewrite Code. apply (any_act _ _ _ _ [(7%N, s)] 1 [] 0 (toy_build true) _ (Done (Err "timeout")) [] [] (EvInitiate s (Err "timeout"))).
    apply (on_initiate sloppy [] [(7%N, s)] s (fun x => Done (rmap AUrl (rmap (fun _ => d) x))) (Err "timeout")). right. now rewrite U.
  - apply (any_return _ _ _ _ _ [] 0 (toy_build true) _ []).
  - apply (any_start _ _ _ _ 1 [] _ (CVerify 7%N (Jwt "x"))).
  - eapply (any_act _ _ _ [(7%N, s)] [(7%N, s)] 2 [] 1 (CVerify 7%N (Jwt "x")) _ _ [] _ (EvGet 7%N (Ok s))). apply on_get. split; [reflexivity|now left].
  - eapply (any_act _ _ _ _ _ 2 [] 1 (CVerify 7%N (Jwt "x")) _ _ [] _ (EvValidate s (Jwt "x") (OFailure "no"))). apply on_validate.
  - eapply (any_act _ _ _ _ [(7%N, set_status s (Complete (OFailure "no"))); (7%N, s)] 2 [] 1 (CVerify 7%N (Jwt "x")) _ _ [] _ (EvUpdate 7%N (Complete (OFailure "no")) (Err "timeout"))).
    apply on_update. right. exists s. split; [now left|reflexivity].
  - apply (any_return _ _ _ _ _ [] 1 (CVerify 7%N (Jwt "x")) _ []).
  - apply (any_start _ _ _ _ 2 [] _ (CPoll 7%N)).
  - eapply (any_act _ _ _ _ _ 3 [] 2 (CPoll 7%N) _ _ [] _ (EvGet 7%N (Ok (set_status s (Complete (OFailure "no")))))). apply on_get. split; [reflexivity|now left].
  - apply (any_return _ _ _ _ _ [] 2 (CPoll 7%N) _ []).
  - apply (any_start _ _ _ _ 3 [] _ (CRetrieve 7%N)).
  - eapply (any_act _ _ _ _ _ 4 [] 3 (CRetrieve 7%N) _ _ [] _ (EvGet 7%N (Ok (set_status s (Complete (OFailure "no")))))). apply on_get. split; [reflexivity|now left].
  - apply (any_return _ _ _ _ _ [] 3 (CRetrieve 7%N) _ []).
Qed.
Lemma faithful_invents_nothing {S} (st : session_store S) look : faithful st look -> invents_nothing st (fun m u s => look m u = Some s).
Proof.
  intros F. constructor; cbn.
  - intros s m m' x u s' H L. apply (fa_initiate _ _ F) in H. destruct x as [[]|e]; [|left; now rewrite <- H]. destruct H as [H1 H2]. destruct (N.eq_dec u (s_uuid s)) as [->|Ne]; [right; split; [reflexivity|congruence]|left; now rewrite <- H2].
  - intros u v m m' x u' s' H L. apply (fa_update _ _ F) in H. destruct x as [[]|e]; [|left; now rewrite <- H]. destruct H as (s & s1 & L1 & W & H1 & H2).
    destruct (N.eq_dec u' u) as [->|Ne]; [right; split; [reflexivity|]; exists s; replace s' with s1 by congruence; auto|left; now rewrite <- H2].
  - intros u m m' x H. apply (fa_get _ _ F) in H as [H X]. split; [intros s ->; exact X|]. intros u' s' L. now rewrite <- H.
  - intros u m m' x u' s' H L. apply (fa_remove _ _ F) in H. destruct x as [[]|e]; [|now rewrite <- H]. destruct H as (_ & H1 & H2). destruct (N.eq_dec u' u) as [->|Ne]; [congruence|now rewrite <- H2].
  - intros m m' u s H L. destruct (fa_other _ _ F _ _ H u) as [E|E]; congruence.
Qed.
Example c116_trusted_ex : exists y jwt s, invents_nothing sloppy (fun m u s => In (u, s) m) /\ (forall (u : uuid) (s : session), ~ In (u, s) [])
  /\ any_reachable simple_parse _ sloppy [] y /\ In (2, (CPoll 7%N, EvReturn (Ok (AStatus (Complete (OFailure "no")))))) (an_log y)
  /\ In (3, (CRetrieve 7%N, EvReturn (Ok (AJwt jwt)))) (an_log y) /\ In (1, (CVerify 7%N (Jwt "x"), EvValidate s (Jwt "x") (OFailure "no"))) (an_log y)
  /\ invents_nothing journal (fun j u s => last_entry u j = Some s).
Proof.
  destruct sloppy_run as (s & R). eexists. eexists. exists s. split; [exact sloppy_invents_nothing|]. split; [intros u s' []|]. split; [exact R|].
  split; [do 2 right; now left|]. split; [now left|]. split; [do 6 right; now left|]. apply faithful_invents_nothing, journal_faithful.
Qed.
