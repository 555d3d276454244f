From Coq Require Import Lia.
From Verif Require Import Base BaseFacts Json Url Params Request Metadata Dcql Response Session Client Builder Server.
From Verif Require Import Spec SpecObject SpecRequest SpecBuilder SpecSession SpecServer StoreFacts PfBuilder PfSession PfServer PfHistory.

(** What a program did so far (newest first), and what remains. *)
Inductive ran {A} (p : prog A) : list event -> prog A -> Prop :=
| ran_none : ran p [] p
| ran_initiate l s k x : ran p l (Initiate s k) -> ran p (EvInitiate s x :: l) (k x)
| ran_update l u st k x : ran p l (Update u st k) -> ran p (EvUpdate u st x :: l) (k x)
| ran_get l u k x : ran p l (Get u k) -> ran p (EvGet u x :: l) (k x)
| ran_remove l u k x : ran p l (Remove u k) -> ran p (EvRemove u x :: l) (k x)
| ran_validate l s r k o : ran p l (Validate s r k) -> ran p (EvValidate s r o :: l) (k o).
Lemma ran_act {A} (p q : prog A) l m m' q' e : ran p l q -> act m q m' q' e -> ran p (e :: l) q'.
Proof. intros R H. destruct H; now constructor. Qed.

(** Some of the entries of a list, in their order. *)
Inductive among {A} : list A -> list A -> Prop :=
| am_nil : among [] []
| am_skip x l l' : among l l' -> among l (x :: l')
| am_take x l l' : among l l' -> among (x :: l) (x :: l').
Lemma among_nil {A} (l : list A) : among [] l.
Proof. induction l; now constructor. Qed.
Lemma among_cons {A} (x : A) l l' : among (x :: l) l' -> exists l1 l2, l' = l1 ++ x :: l2 /\ among l l2.
Proof.
  intros H. remember (x :: l) as xl eqn:E. revert x l E. induction H as [|y k k' H IH|y k k' H IH]; intros x l E; [discriminate| |].
  - destruct (IH _ _ E) as (l1 & l2 & -> & Ha). exists (y :: l1), l2. auto.
  - injection E as -> ->. exists [], k'. auto.
Qed.

Section S.
Variable up : string -> option url.

(** A call that was not in flight in [a] did everything it did since then. *)
Definition since (c : call) (b : sys) (l : list (call * event)) : Prop :=
  (forall p, In (c, p) (sy_tasks b) -> exists evs, ran (code up c) evs p /\ among (map (pair c) evs) l)
  /\ forall newer older x, l = newer ++ (c, EvReturn x) :: older ->
       exists evs, ran (code up c) evs (Done x) /\ among (map (pair c) evs) older.
Lemma since_steps c a b : (forall p, ~ In (c, p) (sy_tasks a)) -> steps up a b ->
  exists l, history a b l /\ since c b l.
Proof.
  intros N H. induction H as [a|a b d H IH S].
  - exists []. split; [reflexivity|]. split; [intros p Hp; now destruct (N p)|intros [|? ?] ? ? E; discriminate].
  - destruct (IH N) as (l & Hl & T & L). clear IH. unfold history in *.
    destruct S as [m ts l0 c0|m m' pre c0 p0 p1 post l0 e Ha|m pre c0 r post l0|m pre c0 p0 post l0]; cbn [sy_log sy_tasks] in *.
    + exists l. split; [exact Hl|]. split; [|exact L]. cbn [sy_tasks]. intros p [E|Hp]; [|auto]. injection E as -> <-. exists []. split; [constructor|apply among_nil].
    + exists ((c0, e) :: l). split; [now rewrite Hl|]. split.
      * cbn [sy_tasks]. intros p Hp. apply in_mid in Hp as [E|Hp].
        -- injection E as -> ->. destruct (T p0) as (evs & R & Am); [apply in_mid; auto|]. exists (e :: evs). split; [exact (ran_act _ _ _ _ _ _ _ R Ha)|]. now constructor.
        -- destruct (T p) as (evs & R & Am); [apply in_mid; auto|]. exists evs. split; [exact R|now constructor].
      * intros [|x0 n] o x E; cbn in E; injection E as E1 E2; [|eapply L; exact E2].
        subst. inversion Ha.
    + exists ((c0, EvReturn r) :: l). split; [now rewrite Hl|]. split.
      * cbn [sy_tasks]. intros p Hp. destruct (T p) as (evs & R & Am); [apply in_mid; auto|]. exists evs. split; [exact R|now constructor].
      * intros [|x0 n] o x E; cbn in E.
        -- injection E as -> -> <-. apply T, in_mid. auto.
        -- injection E as _ E2. eapply L; exact E2.
    + exists l. split; [exact Hl|]. split; [|exact L]. cbn [sy_tasks]. intros p Hp. apply T, in_mid. auto.
Qed.
End S.

Lemma ran_done {A} (r : res A) l q : ran (Done r) l q -> l = [] /\ q = Done r.
Proof. intros H. induction H as [|l s k x H IH|l u st k x H IH|l u k x H IH|l u k x H IH|l s r' k o H IH]; [auto| | | | |]; destruct IH as [_ E]; discriminate. Qed.
(** What runs from a read on. *)
Lemma ran_from_get {A} u (k : res session -> prog A) l q : ran (Get u k) l q ->
  l = [] /\ q = Get u k \/ exists x l', l = l' ++ [EvGet u x] /\ ran (k x) l' q.
Proof.
  intros H. induction H as [|l s f x H IH|l v st f x H IH|l v f x H IH|l v f x H IH|l s r' f o H IH]; [auto| | | | |];
    (destruct IH as [[-> E]|(y & l' & -> & IH)];
      [first [discriminate E|injection E as -> ->; right; eexists; exists []; split; [reflexivity|constructor]]
      |right; exists y; eexists; split; [|econstructor; exact IH]; reflexivity]).
Qed.
Lemma ran_from_update {A} u st (k : res unit -> prog A) l q : ran (Update u st k) l q ->
  l = [] /\ q = Update u st k \/ exists x l', l = l' ++ [EvUpdate u st x] /\ ran (k x) l' q.
Proof.
  intros H. induction H as [|l s f x H IH|l v st' f x H IH|l v f x H IH|l v f x H IH|l s r' f o H IH]; [auto| | | | |];
    (destruct IH as [[-> E]|(y & l' & -> & IH)];
      [first [discriminate E|injection E as -> -> ->; right; eexists; exists []; split; [reflexivity|constructor]]
      |right; exists y; eexists; split; [|econstructor; exact IH]; reflexivity]).
Qed.
Lemma ran_from_validate {A} s r (k : outcome -> prog A) l q : ran (Validate s r k) l q ->
  l = [] /\ q = Validate s r k \/ exists x l', l = l' ++ [EvValidate s r x] /\ ran (k x) l' q.
Proof.
  intros H. induction H as [|l s' f x H IH|l v st' f x H IH|l v f x H IH|l v f x H IH|l s' r' f x H IH]; [auto| | | | |];
    (destruct IH as [[-> E]|(y & l' & -> & IH)];
      [first [discriminate E|injection E as -> -> ->; right; eexists; exists []; split; [reflexivity|constructor]]
      |right; exists y; eexists; split; [|econstructor; exact IH]; reflexivity]).
Qed.
Lemma ran_poll u l x : ran (pmap AStatus (poll_code u)) l (Done x) -> exists r, l = [EvGet u r] /\ x = rmap AStatus (rmap s_status r).
Proof.
  intros H. apply ran_from_get in H as [[_ E]|(r & l' & -> & H)]; [discriminate|]. apply ran_done in H as [-> E]. injection E as ->. exists r. now split.
Qed.
Lemma ran_retrieve u l j : ran (pmap AJwt (retrieve_code u)) l (Done (Ok (AJwt j))) -> exists s evs, l = evs ++ [EvGet u (Ok s)] /\ s_jwt s = j.
Proof.
  intros H. apply ran_from_get in H as [[_ E]|([s|e] & l' & -> & H)]; [discriminate| |].
  - exists s, l'. split; [reflexivity|]. destruct (status_lt (s_status s) SentRequest).
    + apply ran_from_update in H as [[_ E]|([[]|e] & l2 & -> & H)]; [discriminate| |]; apply ran_done in H as [_ E]; cbn in E; congruence.
    + apply ran_done in H as [_ E]. cbn in E. congruence.
  - apply ran_done in H as [_ E]. discriminate.
Qed.
Lemma ran_verify u r l x : ran (pmap (fun _ => ANothing) (verify_code u r)) l (Done (Ok x)) ->
  exists s o, l = [EvUpdate u (Complete o) (Ok tt); EvValidate s r o; EvGet u (Ok s)].
Proof.
  intros H. apply ran_from_get in H as [[_ E]|([s|e] & l' & -> & H)]; [discriminate| |apply ran_done in H as [_ E]; discriminate].
  apply ran_from_validate in H as [[_ E]|(o & l2 & -> & H)]; [discriminate|].
  apply ran_from_update in H as [[_ E]|([[]|e] & l3 & -> & H)]; [discriminate| |]; apply ran_done in H as [-> E]; [|discriminate]. exists s, o. reflexivity.
Qed.
Lemma among_last {A} (x : A) l l' : among (l ++ [x]) l' -> exists l1 l2, l' = l1 ++ x :: l2.
Proof.
  revert l'. induction l as [|y l IH]; intros l' H; cbn in H; apply among_cons in H as (l1 & l2 & -> & H); [eauto|].
  destruct (IH _ H) as (l3 & l4 & ->). exists (l1 ++ y :: l3), l4. now rewrite <- app_assoc.
Qed.

(** C88: calls are answered from what they find while they run: a poll or retrieve that was not yet in flight at some
    moment and returns later returns what was stored at a moment in between; and a response that is taken was judged in
    between, for the session as stored in between, and the judgement stored after that. *)
Lemma c88_fresh_pf
  : forall (url_parse : string -> option url) (a b : sys) (l : list (call * event)) (c : call) (newer older : list (call * event)) (x : answer),
    reachable url_parse a -> steps url_parse a b -> history a b l ->
    (forall p, ~ In (c, p) (sy_tasks a)) ->
    l = newer ++ (c, EvReturn (Ok x)) :: older ->
    (forall u st, c = CPoll u -> x = AStatus st ->
       exists between before s, older = between ++ (c, EvGet u (Ok s)) :: before
         /\ after (before ++ sy_log a) u = Some s /\ s_status s = st)
    /\ (forall u jwt, c = CRetrieve u -> x = AJwt jwt ->
       exists between before s, older = between ++ (c, EvGet u (Ok s)) :: before
         /\ after (before ++ sy_log a) u = Some s /\ s_jwt s = jwt)
    /\ (forall u r, c = CVerify u r ->
       exists l1 l2 l3 before s o,
         older = l1 ++ (c, EvUpdate u (Complete o) (Ok tt)) :: l2 ++ (c, EvValidate s r o) :: l3 ++ (c, EvGet u (Ok s)) :: before
         /\ after (before ++ sy_log a) u = Some s).
Proof.
  intros up a b l c newer older x R S H N El. destruct (since_steps up c a b N S) as (l' & H' & _ & L).
  assert (l' = l) by (unfold history in *; rewrite H in H'; now apply app_inv_tail in H'). subst l'.
  destruct (L _ _ _ El) as (evs & Ra & Am). clear L H'.
  assert (Rb : reachable up b) by (eapply steps_trans; eassumption).
  assert (X : forall n e o, l = n ++ (c, e) :: o -> explained e (after (o ++ sy_log a))).
  { intros n e o E. apply (proj2 (c88_linear_pf up b Rb) n c). rewrite H, E, <- app_assoc. reflexivity. }
  assert (G : forall n u s o, older = n ++ (c, EvGet u (Ok s)) :: o -> after (o ++ sy_log a) u = Some s).
  { intros n u s o E. assert (Y : explained (EvGet u (Ok s)) (after (o ++ sy_log a))).
    { apply (X (newer ++ (c, EvReturn (Ok x)) :: n)). rewrite El, E, <- app_assoc. reflexivity. }
    destruct Y as [Y|Y]; [discriminate|]. cbn in Y. destruct (after (o ++ sy_log a) u); congruence. }
  split; [|split].
  - intros u st -> ->. apply ran_poll in Ra as ([s|e] & -> & E); [|discriminate]. injection E as ->.
    cbn in Am. apply among_cons in Am as (l1 & l2 & -> & _). exists l1, l2, s. split; [reflexivity|]. split; [|reflexivity]. eapply G. reflexivity.
  - intros u j -> ->. apply ran_retrieve in Ra as (s & ev & -> & E). rewrite map_app in Am. apply among_last in Am as (l1 & l2 & ->).
    exists l1, l2, s. split; [reflexivity|]. split; [|exact E]. eapply G. reflexivity.
  - intros u r ->. apply ran_verify in Ra as (s & o & ->). cbn in Am. apply among_cons in Am as (l1 & m1 & -> & Am).
    apply among_cons in Am as (l2 & m2 & -> & Am). apply among_cons in Am as (l3 & l4 & -> & _).
    exists l1, l2, l3, l4, s, o. split; [reflexivity|].
    apply (G (l1 ++ (CVerify u r, EvUpdate u (Complete o) (Ok tt)) :: l2 ++ (CVerify u r, EvValidate s r o) :: l3)).
    rewrite <- app_assoc. cbn [app]. rewrite <- app_assoc. reflexivity.
Qed.
Example c88_fresh_ex :
  exists a b l older, reachable simple_parse a /\ steps simple_parse a b /\ history a b l
    /\ (forall p, ~ In (CVerify 7%N (Jwt "j"), p) (sy_tasks a))
    /\ l = [] ++ (CVerify 7%N (Jwt "j"), EvReturn (Ok ANothing)) :: older.
Proof.
  destruct (toy_built true) as (s & d & U & St & R).
  do 4 eexists. split; [exact R|]. split; [|split; [|split]].
  - eapply steps_snoc; [eapply steps_snoc; [eapply steps_snoc; [eapply steps_snoc; [eapply steps_snoc; [apply steps_refl|]|]|]|]|].
    + apply (step_start _ _ _ _ (CVerify 7%N (Jwt "j"))).
    + eapply (step_act _ _ _ [] _ _ _ []). apply (act_get _ _ _ false).
    + eapply (step_act _ _ _ [] _ _ _ []). cbn. apply (act_validate _ _ _ _ (OFailure "no")).
    + eapply (step_act _ _ _ [] _ _ _ []). cbn. eapply (act_update _ _ _ _ false). cbn. reflexivity.
    + apply (step_return _ _ [] _ _ []).
  - unfold history. cbn [sy_log]. match goal with |- ?a :: ?b :: ?c :: ?d :: ?t = _ => change (a :: b :: c :: d :: t) with ([a; b; c; d] ++ t) end. reflexivity.
  - cbn. intros p [].
  - reflexivity.
Qed.
