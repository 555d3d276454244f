From Coq Require Import Lia Permutation.
From Verif Require Import Base BaseFacts Utf8 Json JsonFacts JsonText Serde Url UrlEncoded Object Formats Params Metadata Dcql
  Request Response Session X509 Client Builder Server ExVerifier.
From Verif Require Import Spec SpecObject SpecRequest SpecBuilder SpecSession SpecServer SpecVerifierEx SpecExHistory
  StoreFacts PfBuilder UuidFacts PfSession PfServer PfHistory PfFresh PfExServer.

Section S.
Variable up : string -> option url.
Variable op : string -> res string.
Variable a : adapter.

Lemma logs_after hl l : logs op a hl l -> forall u, hafter hl u = after l u.
Proof.
  intros L. induction L as [|h hl l C L IH|h c e hl l C V N L IH|h c x hl l C L IH]; intros u; cbn [hafter after effect]; auto.
  destruct e as [s [x|e]|v st [x|e]|v x|v [x|e]|s r o|x]; cbn [effect]; auto.
  - unfold aset. destruct (N.eqb u (s_uuid s)); auto.
  - cbn [apply_abs fst]. rewrite <- IH. destruct (hafter hl v); cbn [fst]; [|apply IH]. unfold aset. destruct (N.eqb u v); auto.
  - unfold aset. destruct (N.eqb u v); auto.
Qed.
Lemma logs_split hl l n h e o : logs op a hl l -> hl = n ++ (h, HDoes e) :: o ->
  exists n' c o', l = n' ++ (c, e) :: o' /\ logs op a o o' /\ call_of a h = Some c.
Proof.
  intros L. revert n. induction L as [|h0 hl l C L IH|h0 c e0 hl l C V N L IH|h0 c x hl l C L IH]; intros n E.
  - destruct n; discriminate.
  - destruct n as [|n0 n]; [discriminate|]. injection E as _ E. eapply IH. exact E.
  - destruct n as [|n0 n]; cbn in E.
    + injection E as <- <- <-. exists [], c, l. auto.
    + injection E as _ E. destruct (IH _ E) as (n' & c' & o' & -> & R). exists ((c, e0) :: n'), c', o'. auto.
  - destruct n as [|n0 n]; [discriminate|]. injection E as _ E. destruct (IH _ E) as (n' & c' & o' & -> & R). exists ((c, EvReturn x) :: n'), c', o'. auto.
Qed.
Lemma explained_ext e f g : (forall u, f u = g u) -> explained e f -> explained e g.
Proof. intros E. destruct e as [s x|u st x|u x|u x|s r o|x]; cbn [explained apply_abs]; rewrite <- ?E; try (destruct (f u)); auto. Qed.
End S.

(** C94: whatever requests the example verifier handles at the same time, what is stored is what the operations in the
    order of the history make of an empty map, and each operation gave the result that the map gives at its place in the
    history, or found the lock held. *)
Lemma c94_linear_pf
  : forall (url_parse : string -> option url) (jwe_open : string -> res string) (a : adapter) (x : hsys),
    hreachable url_parse jwe_open a x ->
    (forall u, st_get u (hs_store x) = hafter (hs_log x) u)
    /\ forall newer h e older, hs_log x = newer ++ (h, HDoes e) :: older -> explained e (hafter older).
Proof.
  intros up op a x R. destruct (simulated _ _ _ _ R) as (y & Ry & E & _ & L). destruct (c88_linear_pf up y Ry) as [S X]. split.
  - intros u. rewrite <- E, S. symmetry. apply (logs_after _ _ _ _ L).
  - intros n h e o El. destruct (logs_split _ _ _ _ _ _ _ _ L El) as (n' & c & o' & E' & L' & _).
    eapply explained_ext; [|exact (X _ _ _ _ E')]. intros u. symmetry. apply (logs_after _ _ _ _ L').
Qed.

Section F.
Variable up : string -> option url.
Variable op : string -> res string.
Variable a : adapter.
Definition hsince (h : hreq) (y : hsys) (l : list (hreq * hevent)) : Prop :=
  (forall p, In (h, p) (hs_tasks y) -> exists evs, ran (handler up a h) evs p /\ among (map (fun e => (h, HDoes e)) evs) l)
  /\ forall newer older r, l = newer ++ (h, HReply r) :: older ->
       exists evs, ran (handler up a h) evs (Done (Ok r)) /\ among (map (fun e => (h, HDoes e)) evs) older.
Lemma hsince_steps h x y : idle h x -> hsteps up op a x y -> exists l, hhistory x y l /\ hsince h y l.
Proof.
  intros N H. induction H as [x|x y z H IH S].
  - exists []. split; [reflexivity|]. split; [intros p Hp; now destruct (N p)|intros [|? ?] ? ? E; discriminate].
  - destruct (IH N) as (l & Hl & T & L). clear IH. unfold hhistory in *.
    destruct S as [m ts l0 c0|m m' pre c0 p0 p1 post l0 e Ha Hv|m pre c0 r post l0|m pre c0 p0 post l0]; cbn [hs_log hs_tasks] in *.
    + exists l. split; [exact Hl|]. split; [|exact L]. cbn [hs_tasks]. intros p [E|Hp]; [|auto]. injection E as -> <-. exists []. split; [constructor|apply among_nil].
    + exists ((c0, HDoes e) :: l). split; [now rewrite Hl|]. split.
      * cbn [hs_tasks]. intros p Hp. apply in_mid in Hp as [E|Hp].
        -- injection E as -> ->. destruct (T p0) as (evs & R & Am); [apply in_mid; auto|]. exists (e :: evs). split; [exact (ran_act _ _ _ _ _ _ _ R Ha)|]. now constructor.
        -- destruct (T p) as (evs & R & Am); [apply in_mid; auto|]. exists evs. split; [exact R|now constructor].
      * intros [|x0 n] o r E; cbn in E; [discriminate|]. injection E as _ E2. eapply L; exact E2.
    + exists ((c0, HReply r) :: l). split; [now rewrite Hl|]. split.
      * cbn [hs_tasks]. intros p Hp. destruct (T p) as (evs & R & Am); [apply in_mid; auto|]. exists evs. split; [exact R|now constructor].
      * intros [|x0 n] o r' E; cbn in E.
        -- injection E as -> -> <-. apply T, in_mid. auto.
        -- injection E as _ E2. eapply L; exact E2.
    + exists l. split; [exact Hl|]. split; [|exact L]. cbn [hs_tasks]. intros p Hp. apply T, in_mid. auto.
Qed.
End F.
Lemma ran_pfinish {A B} (f : res A -> B) q l p : ran (pfinish f q) l p -> exists q', ran q l q' /\ p = pfinish f q'.
Proof.
  intros H. induction H as [|l s k x H IH|l u st k x H IH|l u k x H IH|l u k x H IH|l s r k o H IH].
  - exists q. split; [constructor|reflexivity].
  - destruct IH as (q' & R & E). destruct q'; try discriminate E. injection E as -> ->. eexists. split; [constructor; exact R|reflexivity].
  - destruct IH as (q' & R & E). destruct q'; try discriminate E. injection E as -> -> ->. eexists. split; [constructor; exact R|reflexivity].
  - destruct IH as (q' & R & E). destruct q'; try discriminate E. injection E as -> ->. eexists. split; [constructor; exact R|reflexivity].
  - destruct IH as (q' & R & E). destruct q'; try discriminate E. injection E as -> ->. eexists. split; [constructor; exact R|reflexivity].
  - destruct IH as (q' & R & E). destruct q'; try discriminate E. injection E as -> -> ->. eexists. split; [constructor; exact R|reflexivity].
Qed.
Lemma pfinish_done {A B} (f : res A -> B) q r : Done (Ok r) = pfinish f q -> exists x, q = Done x /\ r = f x.
Proof. destruct q; try discriminate. cbn. intros [= ->]. eauto. Qed.
Lemma told st : tells st (status_json st).
Proof.
  destruct st as [| | |[c|c|c]]; cbn [tells status_json]; unfold says_status, says_success, says_failure, says_error;
    (apply members_of; [reflexivity|]; cbn; intuition).
Qed.
Lemma ran_poll_code u l x : ran (poll_code u) l (Done x) -> exists r, l = [EvGet u r] /\ x = rmap s_status r.
Proof.
  intros H. apply ran_from_get in H as [[_ E]|(r & l' & -> & H)]; [discriminate|]. apply ran_done in H as [-> E]. injection E as ->. exists r. now split.
Qed.
Lemma ran_retrieve_code u l j : ran (retrieve_code u) l (Done (Ok j)) -> exists s evs, l = evs ++ [EvGet u (Ok s)] /\ s_jwt s = j.
Proof.
  intros H. apply ran_from_get in H as [[_ E]|([s|e] & l' & -> & H)]; [discriminate| |].
  - exists s, l'. split; [reflexivity|]. destruct (status_lt (s_status s) SentRequest).
    + apply ran_from_update in H as [[_ E]|([[]|e] & l2 & -> & H)]; [discriminate| |]; apply ran_done in H as [_ E]; cbn in E; congruence.
    + apply ran_done in H as [_ E]. congruence.
  - apply ran_done in H as [_ E]. discriminate.
Qed.
Lemma ran_verify_code u r l x : ran (verify_code u r) l (Done (Ok x)) ->
  exists s o, l = [EvUpdate u (Complete o) (Ok tt); EvValidate s r o; EvGet u (Ok s)].
Proof.
  intros H. apply ran_from_get in H as [[_ E]|([s|e] & l' & -> & H)]; [discriminate| |apply ran_done in H as [_ E]; discriminate].
  apply ran_from_validate in H as [[_ E]|(o & l2 & -> & H)]; [discriminate|].
  apply ran_from_update in H as [[_ E]|([[]|e] & l3 & -> & H)]; [discriminate| |]; apply ran_done in H as [-> E]; [|discriminate]. exists s, o. reflexivity.
Qed.
Lemma hsteps_validated up op a x y l : hsteps up op a x y -> hhistory x y l ->
  forall h s r o, In (h, HDoes (EvValidate s r o)) l -> o = app_validator op s r.
Proof.
  intros H. revert l. induction H as [x|x y z H IH S]; intros l Hl h s r o Hi; unfold hhistory in *.
  - change (hs_log x) with ([] ++ hs_log x) in Hl at 1. apply app_inv_tail in Hl. subst l. destruct Hi.
  - assert (exists l', hs_log y = l' ++ hs_log x) as (l' & E').
    { clear -H. induction H as [x|x y z H (l & IH) S]; [now exists []|]. destruct S; cbn [hs_log] in *; try (now exists l); rewrite IH.
      - now exists ((h, HDoes e) :: l).
      - now exists ((h, HReply r) :: l). }
    specialize (IH l' E').
    destruct S as [m ts l0 c0|m m' pre c0 p0 p1 post l0 e Ha Hv|m pre c0 r0 post l0|m pre c0 p0 post l0]; cbn [hs_log] in *.
    + rewrite E' in Hl. apply app_inv_tail in Hl. subst l'. eapply IH, Hi.
    + rewrite E' in Hl. change ((c0, HDoes e) :: l' ++ hs_log x) with (((c0, HDoes e) :: l') ++ hs_log x) in Hl. apply app_inv_tail in Hl. subst l.
      destruct Hi as [E|Hi]; [injection E as -> ->; now apply Hv|eapply IH, Hi].
    + rewrite E' in Hl. change ((c0, HReply r0) :: l' ++ hs_log x) with (((c0, HReply r0) :: l') ++ hs_log x) in Hl. apply app_inv_tail in Hl. subst l.
      destruct Hi as [E|Hi]; [discriminate|eapply IH, Hi].
    + rewrite E' in Hl. apply app_inv_tail in Hl. subst l'. eapply IH, Hi.
Qed.

(** C94: every answer speaks of the time during which the request was handled: a status or request object that is
    answered was stored at a moment after the request came in, and a response that is accepted was judged by the
    validator after it came in, for the session as stored after it came in, and that judgement was stored. *)
Lemma c94_fresh_pf
  : forall (url_parse : string -> option url) (jwe_open : string -> res string) (a : adapter) (x y : hsys)
    (l newer older : list (hreq * hevent)) (sid : string),
    hreachable url_parse jwe_open a x -> hsteps url_parse jwe_open a x y -> hhistory x y l ->
    (forall j, idle (HStatus sid) x -> l = newer ++ (HStatus sid, HReply (RJson 200 j)) :: older ->
       exists u between before s, uuid_of_string sid = Some u
         /\ older = between ++ (HStatus sid, HDoes (EvGet u (Ok s))) :: before
         /\ hafter (before ++ hs_log x) u = Some s /\ tells (s_status s) j)
    /\ (forall jwt, idle (HRequest sid) x -> l = newer ++ (HRequest sid, HReply (RJwt jwt)) :: older ->
       exists u between before s, uuid_of_string sid = Some u
         /\ older = between ++ (HRequest sid, HDoes (EvGet u (Ok s))) :: before
         /\ hafter (before ++ hs_log x) u = Some s /\ s_jwt s = jwt)
    /\ (forall body j, idle (HResponse sid body) x -> l = newer ++ (HResponse sid body, HReply (RJson 200 j)) :: older ->
       exists u l1 l2 l3 before s r, uuid_of_string sid = Some u /\ from_form body = Ok r
         /\ older = l1 ++ (HResponse sid body, HDoes (EvUpdate u (Complete (app_validator jwe_open s r)) (Ok tt)))
                    :: l2 ++ (HResponse sid body, HDoes (EvValidate s r (app_validator jwe_open s r)))
                    :: l3 ++ (HResponse sid body, HDoes (EvGet u (Ok s))) :: before
         /\ hafter (before ++ hs_log x) u = Some s).
Proof.
  intros up op a x y l newer older sid R S H.
  assert (Ry : hreachable up op a y) by (eapply hsteps_trans; eassumption).
  assert (X : forall n h u s o, l = n ++ (h, HDoes (EvGet u (Ok s))) :: o -> hafter (o ++ hs_log x) u = Some s).
  { intros n h u s o E. assert (Y : explained (EvGet u (Ok s)) (hafter (o ++ hs_log x))).
    { apply (proj2 (c94_linear_pf up op a y Ry) n h). rewrite H, E, <- app_assoc. reflexivity. }
    destruct Y as [Y|Y]; [discriminate|]. cbn in Y. destruct (hafter (o ++ hs_log x) u); congruence. }
  assert (G : forall h r, idle h x -> l = newer ++ (h, HReply r) :: older ->
     exists evs, ran (handler up a h) evs (Done (Ok r)) /\ among (map (fun e => (h, HDoes e)) evs) older).
  { intros h r I E. destruct (hsince_steps up op a h x y I S) as (l' & H' & _ & L).
    assert (l' = l) by (unfold hhistory in *; rewrite H in H'; now apply app_inv_tail in H'). subst l'. eapply L, E. }
  split; [|split].
  - intros j I E. destruct (G _ _ I E) as (evs & Ra & Am). cbn [handler] in Ra. unfold get_status in Ra.
    destruct (uuid_of_string sid) as [u|]; [|apply ran_done in Ra as [_ Ra]; discriminate].
    apply ran_pfinish in Ra as (q & Ra & Eq). apply pfinish_done in Eq as (z & -> & Ez). apply ran_poll_code in Ra as ([s|e] & -> & ->); [|discriminate].
    injection Ez as ->. cbn in Am. apply among_cons in Am as (l1 & l2 & -> & _). exists u, l1, l2, s. split; [reflexivity|]. split; [reflexivity|].
    split; [|apply told]. eapply (X (newer ++ (HStatus sid, HReply _) :: l1)). rewrite E, <- app_assoc. reflexivity.
  - intros j I E. destruct (G _ _ I E) as (evs & Ra & Am). cbn [handler] in Ra. unfold get_request_object in Ra.
    destruct (uuid_of_string sid) as [u|]; [|apply ran_done in Ra as [_ Ra]; discriminate].
    apply ran_pfinish in Ra as (q & Ra & Eq). apply pfinish_done in Eq as ([z|e] & -> & Ez); [|discriminate]. injection Ez as <-.
    apply ran_retrieve_code in Ra as (s & ev & -> & Es). rewrite map_app in Am. apply among_last in Am as (l1 & l2 & ->).
    exists u, l1, l2, s. split; [reflexivity|]. split; [reflexivity|]. split; [|exact Es].
    eapply (X (newer ++ (HRequest sid, HReply _) :: l1)). rewrite E, <- app_assoc. reflexivity.
  - intros body j I E. destruct (G _ _ I E) as (evs & Ra & Am). cbn [handler] in Ra. unfold receive_response in Ra.
    destruct (utf8_valid body); [|apply ran_done in Ra as [_ Ra]; discriminate].
    destruct (uuid_of_string sid) as [u|]; [|apply ran_done in Ra as [_ Ra]; discriminate].
    destruct (from_form body) as [r|]; [|apply ran_done in Ra as [_ Ra]; discriminate].
    apply ran_pfinish in Ra as (q & Ra & Eq). apply pfinish_done in Eq as ([z|e] & -> & Ez); [|discriminate].
    apply ran_verify_code in Ra as (s & o & ->). cbn in Am. apply among_cons in Am as (l1 & m1 & -> & Am).
    apply among_cons in Am as (l2 & m2 & -> & Am). apply among_cons in Am as (l3 & l4 & -> & _).
    assert (Eo : o = app_validator op s r).
    { apply (hsteps_validated _ _ _ _ _ _ S H (HResponse sid body)). rewrite E. apply in_app_iff. right. right. apply in_app_iff. right. right.
      apply in_app_iff. right. now left. }
    subst o. exists u, l1, l2, l3, l4, s, r. split; [reflexivity|]. split; [reflexivity|]. split; [reflexivity|].
    eapply (X (newer ++ (HResponse sid body, HReply _) :: l1 ++ _ :: l2 ++ _ :: l3)). rewrite E.
    rewrite <- app_assoc. cbn [app]. rewrite <- app_assoc. cbn [app]. rewrite <- app_assoc. reflexivity.
Qed.

(* ------------------------------------------------------------ termination *)
Lemma within_follows f p q : follows f p q -> forall n, within n q -> within n p.
Proof.
  intros F. induction F as [r|s k k' F IH|u st k k' F IH|u k k' F IH|u k k' F IH|s r k k' F IH]; intros [|n] W; cbn in *; auto.
Qed.
Lemma hreachable_tasks up op a x : hreachable up op a x ->
  Forall (fun t => within 4 (snd t) /\ ((exists f q, follows f (snd t) q) \/ snd t = Done (Ok (RError 400)))) (hs_tasks x).
Proof.
  intros R. destruct (simulated _ _ _ _ R) as (y & Ry & _ & T & _). pose proof (reachable_bounded _ _ Ry) as B.
  revert B. generalize (sy_tasks y) T. clear. intros ts T. induction T as [|h hs cs C T IH|h c p q hs cs C F T IH]; intros B; constructor; cbn [snd].
  - split; [exact I|now right].
  - auto.
  - inversion B; subst. split; [eapply within_follows; eassumption|left; eauto].
  - inversion B; subst. auto.
Qed.
Definition hbounded (ns : list nat) (ts : list (hreq * prog reply)) : Prop := Forall2 (fun n t => within n (snd t)) ns ts.
Lemma hbounded_step up op a x y ns : hstep up op a x y -> length (hs_tasks y) <= length (hs_tasks x) -> hbounded ns (hs_tasks x) ->
  exists ns', hbounded ns' (hs_tasks y) /\ total ns' < total ns.
Proof.
  intros S L B. assert (P : forall m pre (h : hreq) p post, hbounded m (pre ++ (h, p) :: post) ->
     exists n1 n n2, m = n1 ++ n :: n2 /\ hbounded n1 pre /\ within n p /\ hbounded n2 post).
  { intros m pre c p post F. apply Forall2_app_inv_r in F as (n1 & n2 & F1 & F2 & ->). inversion F2 as [|n t n3 ts W F3]; subst. exists n1, n, n3. auto. }
  assert (Z : forall (p : prog reply) n, within n p -> 0 < n) by (intros p [|n] W; [destruct W|lia]).
  destruct S as [m ts l c|m m' pre c p p' post l e Ha Hv|m pre c r post l|m pre c p post l]; cbn [hs_tasks] in *.
  - cbn in L. lia.
  - destruct (P _ _ _ _ _ B) as (n1 & n & n2 & -> & F1 & W & F2). destruct (within_act _ _ _ _ _ _ Ha W) as (k & -> & W').
    exists (n1 ++ k :: n2). split; [apply Forall2_app; [exact F1|now constructor]|]. rewrite !total_app. cbn. lia.
  - destruct (P _ _ _ _ _ B) as (n1 & n & n2 & -> & F1 & W & F2). exists (n1 ++ n2). split; [now apply Forall2_app|].
    rewrite !total_app. cbn. specialize (Z _ _ W). unfold total in *. lia.
  - destruct (P _ _ _ _ _ B) as (n1 & n & n2 & -> & F1 & W & F2). exists (n1 ++ n2). split; [now apply Forall2_app|].
    rewrite !total_app. cbn. specialize (Z _ _ W). unfold total in *. lia.
Qed.

(** C94: if no further request comes in, the server comes to rest, after at most four steps (the answer included) for
    every request being handled, however they interleave. *)
Lemma c94_ends_pf
  : forall (url_parse : string -> option url) (jwe_open : string -> res string) (a : adapter) (x y : hsys) (n : nat),
    hreachable url_parse jwe_open a x -> hquiet url_parse jwe_open a x y n -> n <= 4 * length (hs_tasks x).
Proof.
  intros up op a x y n R Q.
  assert (B : exists ns, hbounded ns (hs_tasks y) /\ total ns + n <= 4 * length (hs_tasks x)).
  { induction Q as [x|x y z n Q IH S L].
    - exists (repeat 4 (length (hs_tasks x))). split.
      + pose proof (hreachable_tasks _ _ _ _ R) as F. unfold hbounded. clear R. induction F as [|t ts [W _] F IH]; cbn [length repeat]; constructor; auto.
      + clear R. generalize (hs_tasks x). intros ts. induction ts as [|t ts IH]; [cbn; lia|]. cbn [length repeat total fold_right]. fold (total (repeat 4 (length ts))). lia.
    - destruct (IH R) as (ns & B & T). destruct (hbounded_step _ _ _ _ _ _ S L B) as (ns' & B' & T'). exists ns'. split; [exact B'|]. lia. }
  destruct B as (ns & _ & B). lia.
Qed.

Lemma replies_app l1 l2 : replies (l1 ++ l2) = replies l2 ++ replies l1.
Proof. unfold replies. now rewrite rev_app_distr, flat_map_app. Qed.
Lemma hfinish up op a h f p q : follows f p q -> forall m pre post l, exists m' r evs,
  hsteps up op a (mk_hsys m (pre ++ (h, p) :: post) l) (mk_hsys m' (pre ++ post) ((h, HReply r) :: evs ++ l)) /\ replies evs = [].
Proof.
  assert (G : forall p p' m m1 pre post l e, act m p m1 p' e -> (forall s r o, e = EvValidate s r o -> o = app_validator op s r) ->
     (exists m' r evs, hsteps up op a (mk_hsys m1 (pre ++ (h, p') :: post) ((h, HDoes e) :: l)) (mk_hsys m' (pre ++ post) ((h, HReply r) :: evs ++ (h, HDoes e) :: l)) /\ replies evs = []) ->
     exists m' r evs, hsteps up op a (mk_hsys m (pre ++ (h, p) :: post) l) (mk_hsys m' (pre ++ post) ((h, HReply r) :: evs ++ l)) /\ replies evs = []).
  { intros p0 p' m m1 pre post l e A V (m' & x & evs & S & Re). exists m', x, (evs ++ [(h, HDoes e)]). split.
    - rewrite <- app_assoc. eapply hsteps_trans; [|exact S]. eapply hsteps_snoc; [apply hsteps_refl|]. now apply h_act.
    - rewrite replies_app, Re. reflexivity. }
  intros F. induction F as [r|s k k' F IH|u st k k' F IH|u k k' F IH|u k k' F IH|s r k k' F IH]; intros m pre post l.
  - exists m, (f r), []. split; [|reflexivity]. eapply hsteps_snoc; [apply hsteps_refl|]. apply h_return.
  - destruct (initiate false s m) as [m1 y] eqn:E. eapply G; [eapply act_initiate; exact E|discriminate|apply IH].
  - destruct (update_status false u st m) as [m1 y] eqn:E. eapply G; [eapply act_update; exact E|discriminate|apply IH].
  - eapply G; [apply (act_get m u k false)|discriminate|apply IH].
  - destruct (remove_session false u m) as [m1 y] eqn:E. eapply G; [eapply act_remove; exact E|discriminate|apply IH].
  - eapply G; [apply (act_validate m s r k (app_validator op s r))|intros s2 r2 o2 X; now injection X as <- <- <-|apply IH].
Qed.
(** C94: and from any state of the server all requests being handled can be answered, in whichever order; none has to
    wait for another. *)
Lemma c94_all_answered_pf
  : forall (url_parse : string -> option url) (jwe_open : string -> res string) (a : adapter) (x : hsys) (order : list hreq),
    hreachable url_parse jwe_open a x -> Permutation order (map fst (hs_tasks x)) ->
    exists y l, hsteps url_parse jwe_open a x y /\ hhistory x y l /\ hs_tasks y = [] /\ map fst (replies l) = order.
Proof.
  intros up op a x order R. apply hreachable_tasks in R. destruct x as [m ts l]. revert m ts l R. induction order as [|h order IH]; intros m ts l F P; cbn [hs_tasks] in *.
  - apply Permutation_nil in P. destruct ts; [|discriminate]. exists (mk_hsys m [] l), []. split; [apply hsteps_refl|]. repeat split.
  - assert (I : In h (map fst ts)) by (eapply Permutation_in; [exact P|now left]). apply in_map_iff in I as ([h' p] & E & I). cbn in E. subst h'.
    apply in_split in I as (pre & post & ->). rewrite map_app in P. cbn [map fst] in P. apply Permutation_cons_app_inv in P. rewrite <- map_app in P.
    apply Forall_app in F as [F1 F2]. inversion F2 as [|t ts [W D] F3]; subst. cbn [snd] in *.
    assert (Fin : exists m' r evs, hsteps up op a (mk_hsys m (pre ++ (h, p) :: post) l) (mk_hsys m' (pre ++ post) ((h, HReply r) :: evs ++ l)) /\ replies evs = []).
    { destruct D as [(f & q & Fo)| ->]; [exact (hfinish up op a h f p q Fo m pre post l)|].
      exists m, (RError 400), []. split; [|reflexivity]. eapply hsteps_snoc; [apply hsteps_refl|]. apply h_return. }
    destruct Fin as (m1 & x & evs & S & Re). destruct (IH m1 (pre ++ post) ((h, HReply x) :: evs ++ l)) as (b & l' & S' & H & T & Rt); [apply Forall_app; now split|exact P|].
    exists b, (l' ++ (h, HReply x) :: evs). split; [eapply hsteps_trans; eassumption|]. split.
    + unfold hhistory in *. cbn in *. rewrite H, <- app_assoc. reflexivity.
    + split; [exact T|]. rewrite replies_app. change ((h, HReply x) :: evs) with ([(h, HReply x)] ++ evs). rewrite replies_app, Re, map_app, Rt. reflexivity.
Qed.

(* ------------------------------------------------------------ progress *)
Lemma logs_step op a h e hl l c0 e0 : logs op a ((h, e) :: hl) ((c0, e0) :: l) -> (forall x, e0 <> EvReturn x) -> logs op a hl l ->
  e = HDoes e0 /\ call_of a h = Some c0 \/ e = HReply (RError 400) /\ logs op a hl ((c0, e0) :: l).
Proof.
  intros L N L'. inversion L; subst; auto. now destruct (N x).
Qed.
(** C94: the status of a session goes back in two ways only: a new session is created under the same id, or the request
    object is fetched by a request that had read the session before anybody fetched it. *)
Lemma c94_only_race_pf
  : forall (url_parse : string -> option url) (jwe_open : string -> res string) (a : adapter) (x y : hsys) (u : uuid) (s s' : session),
    hreachable url_parse jwe_open a x -> hstep url_parse jwe_open a x y ->
    st_get u (hs_store x) = Some s -> st_get u (hs_store y) = Some s' ->
    (progress (s_status s') < progress (s_status s))%N ->
    (exists h, hs_log y = (h, HDoes (EvInitiate s' (Ok tt))) :: hs_log x)
    \/ exists sid, uuid_of_string sid = Some u
       /\ hs_log y = (HRequest sid, HDoes (EvUpdate u SentRequest (Ok tt))) :: hs_log x
       /\ s_status s' = SentRequest
       /\ exists sid' s0, uuid_of_string sid' = Some u
          /\ In (HRequest sid', HDoes (EvGet u (Ok s0))) (hs_log x) /\ s_status s0 = SentRequestByReference.
Proof.
  intros up op a x y u s s' R S G G' P. destruct (simulated _ _ _ _ R) as (z & Rz & Mz).
  assert (C : forall h v, call_of a h = Some (CRetrieve v) -> exists sid, h = HRequest sid /\ uuid_of_string sid = Some v).
  { intros [n f id|sid|sid body|sid] v H; cbn in H.
    - discriminate.
    - destruct (uuid_of_string sid) as [w|] eqn:E; [|discriminate]. injection H as ->. eauto.
    - destruct (utf8_valid body); [|discriminate]. destruct (uuid_of_string sid); [|discriminate]. destruct (from_form body); discriminate.
    - destruct (uuid_of_string sid); discriminate. }
  destruct (sim_step _ _ _ _ _ _ Mz S) as (z' & Dz & Mz').
  destruct Mz as (E1 & _ & L1). destruct Mz' as (E2 & _ & L2). rewrite <- E1 in G. rewrite <- E2 in G'.
  destruct Dz as [->|Sz]; [rewrite G in G'; injection G' as <-; lia|].
  assert (K : forall c e, sy_log z' = (c, e) :: sy_log z -> (forall v, e <> EvReturn v) ->
     exists h, hs_log y = (h, HDoes e) :: hs_log x /\ call_of a h = Some c).
  { intros c e El N. rewrite El in L2.
    destruct S as [m ts l h|m m' pre h p p' post l e0 Ha Hv|m pre h r post l|m pre h p post l]; cbn [hs_store hs_log] in *.
    - rewrite E1 in *. exfalso. rewrite E2 in G'. rewrite G in G'. injection G' as <-. lia.
    - destruct (logs_step _ _ _ _ _ _ _ _ L2 N L1) as [[Ee Ec]|[Ee _]]; [|discriminate]. injection Ee as ->. eauto.
    - exfalso. rewrite E1 in *. rewrite E2 in G'. rewrite G in G'. injection G' as <-. lia.
    - exfalso. rewrite E1 in *. rewrite E2 in G'. rewrite G in G'. injection G' as <-. lia. }
  destruct (c38_only_race_pf up z z' u s s' Rz Sz G G' P) as [(c & El)|(El & Es & s0 & Hg & E0)].
  - left. destruct (K _ _ El) as (h & Eh & _); [discriminate|]. eauto.
  - right. destruct (K _ _ El) as (h & Eh & Ch); [discriminate|]. destruct (C _ _ Ch) as (sid & -> & U). exists sid. split; [exact U|]. split; [exact Eh|]. split; [exact Es|].
    destruct (log_does _ _ _ _ _ _ L1 Hg) as (h' & Hh & Ch' & _); [discriminate|]. destruct (C _ _ Ch') as (sid' & -> & U'). eauto 6.
Qed.

Lemma toy_first : match fst (serve simple_parse toy_open (toy_adapter true) [HInitiate (Some "nonce") 1%N 7%N] []) with
  | [(u, s)] => N.eqb u 7 && match s_status s with SentRequestByReference => true | _ => false end
  | _ => false
  end = true.
Proof. vm_compute. reflexivity. Qed.
Lemma toy_second : forallb (fun x => match snd x with Ok _ => true | Err _ => false end)
  (snd (serve simple_parse toy_open (toy_adapter true) [HInitiate (Some "nonce") 1%N 7%N] [])) = true.
Proof. vm_compute. reflexivity. Qed.
Lemma toy_sid_is : uuid_of_string toy_sid = Some 7%N.
Proof. vm_compute. reflexivity. Qed.
Lemma toy_body : utf8_valid "response=a.b.c" = true /\ from_form "response=a.b.c" = Ok (Jwt "a.b.c").
Proof. split; vm_compute; reflexivity. Qed.
Definition toy_info : json := JObj [("decrypted_payload", JObj []); ("message", JStr "JARM response decrypted and verified")].
Lemma toy_judged s : app_validator toy_open s (Jwt "a.b.c") = OSuccess toy_info.
Proof. vm_compute. reflexivity. Qed.
Lemma toy_started : exists s l, s_status s = SentRequestByReference
  /\ hreachable simple_parse toy_open (toy_adapter true) (mk_hsys [(7%N, s)] [] l).
Proof.
  destruct (serve simple_parse toy_open (toy_adapter true) [HInitiate (Some "nonce") 1%N 7%N] []) as [m rs] eqn:E.
  pose proof toy_first as F. pose proof toy_second as G. rewrite E in F, G. cbn [fst snd] in F, G.
  destruct m as [|[u s] [|]]; try discriminate F. apply andb_true_iff in F as [U St]. apply N.eqb_eq in U. subst u.
  destruct (served simple_parse toy_open (toy_adapter true) _ [] [] _ _ (hsteps_refl _ _ _ _) E) as (l & R & _).
  - intros h e X. rewrite forallb_forall in G. specialize (G _ X). discriminate G.
  - exists s, l. split; [|exact R]. destruct (s_status s); congruence.
Qed.

Definition toy_rest (s : session) : prog reply :=
  Update 7%N SentRequest (fun x : res unit => pfinish request_reply (Done (rmap (fun _ => s_jwt s) x))).
Lemma toy_act s s1 : act [(7%N, s1)] (toy_rest s) [(7%N, set_status s1 SentRequest)] (Done (Ok (RJwt (s_jwt s)))) (EvUpdate 7%N SentRequest (Ok tt)).
Proof.
  exact (act_update [(7%N, s1)] 7%N SentRequest (fun x => pfinish request_reply (Done (rmap (fun _ => s_jwt s) x))) false
           [(7%N, set_status s1 SentRequest)] (Ok tt) eq_refl).
Qed.
Lemma toy_late : exists s l, hreachable simple_parse toy_open (toy_adapter true)
  (mk_hsys [(7%N, set_status s (Complete (OSuccess toy_info)))] [(HRequest toy_sid, toy_rest s)] l).
Proof.
  destruct toy_started as (s & l0 & St & R). set (a := toy_adapter true) in *.
  set (s1 := set_status s (Complete (OSuccess toy_info))).
  set (lx := (HRequest toy_sid, HDoes (EvGet 7%N (Ok s))) :: l0).
  (* the slower fetch *)
  assert (R1 : hreachable simple_parse toy_open a (mk_hsys [(7%N, s)] [(HRequest toy_sid, toy_rest s)] lx)).
  { eapply hsteps_snoc; [eapply hsteps_snoc; [exact R|apply (h_start _ _ _ _ _ _ (HRequest toy_sid))]|].
    assert (E : handler simple_parse a (HRequest toy_sid) = pfinish request_reply (retrieve_code 7%N)) by (cbn [handler]; unfold get_request_object; now rewrite toy_sid_is).
    rewrite E. unfold retrieve_code. cbn [pfinish].
    apply (h_act _ _ _ _ [(7%N, s)] [] _ _ (toy_rest s) [] _ (EvGet 7%N (Ok s))); [|discriminate].
    pose proof (act_get [(7%N, s)] 7%N (fun x => pfinish request_reply (match x with
      | Err e => Done (Err e)
      | Ok s => if status_lt (s_status s) SentRequest then Update 7%N SentRequest (fun x => Done (rmap (fun _ => s_jwt s) x)) else Done (Ok (s_jwt s)) end)) false) as A.
    assert (G : get_session false 7%N [(7%N, s)] = Ok s) by reflexivity. rewrite G in A. rewrite St in A. exact A. }
  (* the response *)
  assert (R2 : exists l2, hreachable simple_parse toy_open a (mk_hsys [(7%N, s1)] [(HRequest toy_sid, toy_rest s)] l2)).
  { assert (E : run false (app_validator toy_open) (handler simple_parse a (HResponse toy_sid "response=a.b.c")) [(7%N, s)] = ([(7%N, s1)], [(s, Jwt "a.b.c")], Ok (RJson 200 (JObj [])))).
    { cbn [handler]. unfold receive_response. rewrite (proj1 toy_body), toy_sid_is, (proj2 toy_body), run_pfinish. unfold verify_code. cbn [run].
      assert (G : get_session false 7%N [(7%N, s)] = Ok s) by reflexivity. rewrite G. cbn [run]. rewrite toy_judged. reflexivity. }
    destruct (h_alone simple_parse toy_open a (HResponse toy_sid "response=a.b.c") _ _ [(HRequest toy_sid, toy_rest s)] lx _ _ _ E) as (evs & Sx).
    eexists. eapply hsteps_trans; [eapply hsteps_snoc; [exact R1|apply (h_start _ _ _ _ _ _ (HResponse toy_sid "response=a.b.c"))]|exact Sx]. }
  destruct R2 as (l2 & R2). exists s, l2. exact R2.
Qed.

(** C94: so the status endpoint can report that a presentation succeeded and later that the wallet has not answered yet,
    for a session that was created once: the wallet fetches the request object twice, and the slower fetch ends last. *)
Lemma c94_regress_refuted_pf
  : exists (url_parse : string -> option url) (jwe_open : string -> res string) (a : adapter) (x y : hsys)
      (l : list (hreq * hevent)) (sid : string) (j1 j2 info : json),
    hreachable url_parse jwe_open a x /\ answered (hs_log x) (HStatus sid) (RJson 200 j1) /\ says_success j1 info
    /\ hsteps url_parse jwe_open a x y /\ hhistory x y l /\ idle (HStatus sid) x
    /\ answered l (HStatus sid) (RJson 200 j2) /\ tells SentRequest j2
    /\ forall h e, In (h, HDoes (EvInitiate e (Ok tt))) l -> False.
Proof.
  destruct toy_late as (s & l2 & R2). set (a := toy_adapter true) in *.
  set (s1 := set_status s (Complete (OSuccess toy_info))). set (s2 := set_status s1 SentRequest).
  assert (Q : forall s0 ts l1, exists evs, hsteps simple_parse toy_open a (mk_hsys [(7%N, s0)] ts l1)
     (mk_hsys [(7%N, s0)] ts ((HStatus toy_sid, HReply (RJson 200 (status_json (s_status s0)))) :: evs ++ l1)) /\ forall h e, ~ In (h, HDoes (EvInitiate e (Ok tt))) evs).
  { intros s0 ts l1. exists [(HStatus toy_sid, HDoes (EvGet 7%N (Ok s0)))]. split; [|intros h e [X|[]]; discriminate].
    eapply hsteps_snoc; [eapply hsteps_snoc; [eapply hsteps_snoc; [apply hsteps_refl|apply (h_start _ _ _ _ _ _ (HStatus toy_sid))]|]|].
    - assert (E : handler simple_parse a (HStatus toy_sid) = pfinish status_reply (poll_code 7%N)) by (cbn [handler]; unfold get_status; now rewrite toy_sid_is).
      rewrite E. unfold poll_code. cbn [pfinish].
      apply (h_act _ _ _ _ [(7%N, s0)] [] _ _ (Done (Ok (RJson 200 (status_json (s_status s0))))) ts _ (EvGet 7%N (Ok s0))); [|discriminate].
      exact (act_get [(7%N, s0)] 7%N (fun x => Done (Ok (status_reply (rmap s_status x)))) false).
    - apply (h_return _ _ _ _ [] _ _ ts). }
  destruct (Q s1 [(HRequest toy_sid, toy_rest s)] l2) as (ev1 & S1 & _).
  set (x := mk_hsys [(7%N, s1)] [(HRequest toy_sid, toy_rest s)] ((HStatus toy_sid, HReply (RJson 200 (status_json (s_status s1)))) :: ev1 ++ l2)) in *.
  assert (Rx : hreachable simple_parse toy_open a x) by (eapply hsteps_trans; eassumption).
  assert (S2 : hsteps simple_parse toy_open a x (mk_hsys [(7%N, s2)] []
     ((HRequest toy_sid, HReply (RJwt (s_jwt s))) :: (HRequest toy_sid, HDoes (EvUpdate 7%N SentRequest (Ok tt))) :: hs_log x))).
  { eapply hsteps_snoc; [eapply hsteps_snoc; [apply hsteps_refl|]|].
    - apply (h_act _ _ _ _ [(7%N, s2)] [] _ _ (Done (Ok (RJwt (s_jwt s)))) [] _ (EvUpdate 7%N SentRequest (Ok tt))); [|discriminate].
      apply toy_act.
    - apply (h_return _ _ _ _ [] _ (RJwt (s_jwt s)) []). }
  destruct (Q s2 [] ((HRequest toy_sid, HReply (RJwt (s_jwt s))) :: (HRequest toy_sid, HDoes (EvUpdate 7%N SentRequest (Ok tt))) :: hs_log x)) as (ev2 & S3 & N2).
  exists simple_parse, toy_open, a, x. eexists.
  exists ((HStatus toy_sid, HReply (RJson 200 (status_json (s_status s2)))) :: ev2 ++ [(HRequest toy_sid, HReply (RJwt (s_jwt s))); (HRequest toy_sid, HDoes (EvUpdate 7%N SentRequest (Ok tt)))]).
  exists toy_sid, (status_json (s_status s1)), (status_json (s_status s2)), toy_info.
  split; [exact Rx|]. split; [now left|]. split; [apply (told (Complete (OSuccess toy_info)))|]. split; [eapply hsteps_trans; eassumption|].
  split; [unfold hhistory; cbn [hs_log]; rewrite <- app_comm_cons, <- app_assoc; reflexivity|].
  split; [intros p [X|[]]; discriminate|]. split; [now left|]. split; [apply (told SentRequest)|].
  intros h e [X|X]; [discriminate|]. apply in_app_iff in X as [X|[X|[X|[]]]]; [now destruct (N2 h e)|discriminate|discriminate].
Qed.

Example c94_linear_ex :
  exists x s, hreachable simple_parse toy_open (toy_adapter true) x /\ hafter (hs_log x) 7%N = Some s
    /\ s_status s = Complete (OSuccess toy_info).
Proof.
  destruct toy_late as (s & l & R). eexists. eexists. split; [exact R|]. rewrite <- (proj1 (c94_linear_pf _ _ _ _ R)). cbn [hs_store].
  split; reflexivity.
Qed.
Example c94_fresh_ex :
  exists x y l newer older j, hreachable simple_parse toy_open (toy_adapter true) x /\ hsteps simple_parse toy_open (toy_adapter true) x y
    /\ hhistory x y l /\ idle (HStatus toy_sid) x /\ l = newer ++ (HStatus toy_sid, HReply (RJson 200 j)) :: older.
Proof.
  destruct toy_late as (s & l & R).
  eexists. exists (mk_hsys [(7%N, set_status s (Complete (OSuccess toy_info)))] [(HRequest toy_sid, toy_rest s)] ((HStatus toy_sid, HReply (RJson 200 (status_json (Complete (OSuccess toy_info))))) :: (HStatus toy_sid, HDoes (EvGet 7%N (Ok (set_status s (Complete (OSuccess toy_info)))))) :: l)).
  exists [(HStatus toy_sid, HReply (RJson 200 (status_json (Complete (OSuccess toy_info))))); (HStatus toy_sid, HDoes (EvGet 7%N (Ok (set_status s (Complete (OSuccess toy_info))))))].
  exists []. do 2 eexists. split; [exact R|]. split; [|split; [|split; [intros p [X|[]]; discriminate|reflexivity]]]; [|unfold hhistory; cbn; reflexivity].
  eapply hsteps_snoc; [eapply hsteps_snoc; [eapply hsteps_snoc; [apply hsteps_refl|apply (h_start _ _ _ _ _ _ (HStatus toy_sid))]|]|].
  - assert (E : handler simple_parse (toy_adapter true) (HStatus toy_sid) = pfinish status_reply (poll_code 7%N)) by (cbn [handler]; unfold get_status; now rewrite toy_sid_is).
    rewrite E. unfold poll_code. cbn [pfinish].
    eapply (h_act _ _ _ _ _ [] _ _ (Done (Ok (RJson 200 (status_json (Complete (OSuccess toy_info)))))) _ _ (EvGet 7%N (Ok (set_status s (Complete (OSuccess toy_info)))))); [|discriminate].
    exact (act_get [(7%N, set_status s (Complete (OSuccess toy_info)))] 7%N (fun x => Done (Ok (status_reply (rmap s_status x)))) false).
  - apply (h_return _ _ _ _ [] _ _ _).
Qed.
Example c94_all_answered_ex :
  exists x, hreachable simple_parse toy_open (toy_adapter true) x
    /\ Permutation [HRequest toy_sid; HStatus toy_sid] (map fst (hs_tasks x)).
Proof.
  destruct toy_late as (s & l & R). eexists. split; [eapply hsteps_snoc; [exact R|apply (h_start _ _ _ _ _ _ (HStatus toy_sid))]|].
  cbn. apply perm_swap.
Qed.
Example c94_ends_ex :
  exists x y, hreachable simple_parse toy_open (toy_adapter true) x /\ hquiet simple_parse toy_open (toy_adapter true) x y 2
    /\ length (hs_tasks x) = 1 /\ hs_tasks y = [].
Proof.
  destruct toy_late as (s & l & R). do 2 eexists. split; [exact R|]. split; [eapply hquiet_step; [eapply hquiet_step; [apply hquiet_none| |]| |]|].
  - apply (h_act _ _ _ _ [(7%N, set_status (set_status s (Complete (OSuccess toy_info))) SentRequest)] [] _ _ (Done (Ok (RJwt (s_jwt s)))) [] _ (EvUpdate 7%N SentRequest (Ok tt))); [|discriminate].
    apply toy_act.
  - cbn. lia.
  - apply (h_return _ _ _ _ [] _ (RJwt (s_jwt s)) []).
  - cbn. lia.
  - split; reflexivity.
Qed.
Example c94_only_race_ex :
  exists x y s s', hreachable simple_parse toy_open (toy_adapter true) x /\ hstep simple_parse toy_open (toy_adapter true) x y
    /\ st_get 7%N (hs_store x) = Some s /\ st_get 7%N (hs_store y) = Some s' /\ (progress (s_status s') < progress (s_status s))%N.
Proof.
  destruct toy_late as (s & l & R). do 4 eexists. split; [exact R|]. split.
  - apply (h_act _ _ _ _ [(7%N, set_status (set_status s (Complete (OSuccess toy_info))) SentRequest)] [] _ _ (Done (Ok (RJwt (s_jwt s)))) [] _ (EvUpdate 7%N SentRequest (Ok tt))); [|discriminate].
    apply toy_act.
  - split; [reflexivity|]. split; [reflexivity|]. reflexivity.
Qed.
