From Coq Require Import Lia Sorted Permutation.
From Verif Require Import Base BaseFacts Utf8 Json Url Request Metadata Dcql Response Session Client Builder Server ExVerifier ExCli ExConsole.
From Verif Require Import Spec SpecObject SpecRequest SpecBuilder SpecSession SpecServer SpecVerifierEx SpecConsole SpecAtomic SpecCliAtomic
  StoreFacts PfBuilder UuidFacts PfSession PfServer PfHistory PfAtomic PfExCli PfConsole.

(** The call of the library that a request makes, and the answer for its result. *)
Definition ccall (h : creq) : option call :=
  match h with
  | CFetch sid => option_map Server.CRetrieve (uuid_of_string sid)
  | CResponse sid body =>
      if utf8_valid body then
        match uuid_of_string sid, from_form body with Some u, Ok r => Some (CVerify u r) | _, _ => None end
      else None
  end.
Definition fin (h : creq) (x : res answer) : reply :=
  match h with
  | CFetch _ => match x with Ok (AJwt jwt) => RJwt jwt | _ => RError 500 end
  | CResponse _ _ => match x with Ok _ => RJson 200 (JObj []) | Err _ => RError 500 end
  end.
Lemma fin_error h e : exists n, fin h (Err e) = RError n.
Proof. destruct h; cbn; eauto. Qed.

(** Handling follows a call, with the console in between. *)
Inductive cf (f : res answer -> reply) : cprog -> prog answer -> Prop :=
| cf_done x : cf f (CDone (f x)) (Done x)
| cf_set d k q : cf f k q -> cf f (CSet d k) q
| cf_read k q : cf f k q -> cf f (CRead k) q
| cf_show d k q : cf f k q -> cf f (CShow d k) q
| cf_notify k q : cf f k q -> cf f (CNotify k) q
| cf_get u k k' : (forall x, cf f (k x) (k' x)) -> cf f (CGet u k) (Get u k')
| cf_update u st k k' : (forall x, cf f (k x) (k' x)) -> cf f (CUpdate u st k) (Update u st k')
| cf_validate s r k k' : (forall o, cf f (k o) (k' o)) -> cf f (CValidate s r k) (Validate s r k').
Lemma cf_run f p q : cf f p q -> forall m m' j x, run false cli_validator q m = (m', j, x) -> undisturbed p m = (m', f x).
Proof.
  induction 1 as [x0|d k q F IH|k q F IH|d k q F IH|k q F IH|u k k' F IH|u st k k' F IH|s r k k' F IH]; intros m m' j x; cbn [run undisturbed];
    [intros E; injection E as <- <- <-; reflexivity|apply IH|apply IH|apply IH|apply IH|..].
  - apply IH.
  - destruct (update_status false u st m). apply IH.
  - destruct (run false cli_validator (k' (cli_validator s r)) m) as [[m1 j1] x1] eqn:E. intros X. injection X as <- <- <-. exact (IH _ _ _ _ _ E).
Qed.
Lemma handler_cf up h c : ccall h = Some c -> cf (fin h) (chandler h) (code up c).
Proof.
  destruct h as [sid|sid body]; cbn [ccall chandler].
  - destruct (uuid_of_string sid) as [u|]; [|discriminate]. cbn [option_map]. intros E. injection E as <-. cbn [code]. unfold retrieve_code. cbn [within pmap].
    apply cf_get. intros [s|e]; [|apply (cf_done (fin (CFetch sid)) (Err e))]. destruct (status_lt (s_status s) SentRequest); cbn [within pmap].
    + apply cf_update. intros [[]|e]; cbn [rmap]; [|apply (cf_done (fin (CFetch sid)) (Err e))]. apply cf_set, cf_read. apply (cf_done (fin (CFetch sid)) (Ok (AJwt (s_jwt s)))).
    + cbn [rmap]. apply cf_set, cf_read. apply (cf_done (fin (CFetch sid)) (Ok (AJwt (s_jwt s)))).
  - destruct (utf8_valid body); [|discriminate]. destruct (uuid_of_string sid) as [u|]; [|discriminate]. destruct (from_form body) as [r|]; [|discriminate].
    intros E. injection E as <-. cbn [code]. unfold verify_code. cbn [within pmap]. apply cf_set, cf_read. set (h := CResponse sid body).
    apply cf_get. intros [s|e]; cbn [within pmap]; [|apply (cf_done (fin h) (Err e))]. apply cf_validate. intros o. apply cf_update. intros [[]|e]; cbn [rmap].
    + apply (cf_done (fin h) (Ok ANothing)).
    + apply (cf_done (fin h) (Err e)).
Qed.
(** A request that makes no call is refused. *)
Lemma handler_none h : ccall h = None -> exists n, cf (fun _ => RError n) (chandler h) (Done (Err "")).
Proof.
  destruct h as [sid|sid body]; cbn [ccall chandler].
  - destruct (uuid_of_string sid) as [u|]; [discriminate|]. intros _. exists 500%N. apply (cf_done (fun _ => RError 500) (Err "")).
  - destruct (utf8_valid body); [|intros _; exists 400%N; apply (cf_done (fun _ => RError 400) (Err ""))].
    destruct (uuid_of_string sid) as [u|]; [|intros _; exists 500%N; apply (cf_done (fun _ => RError 500) (Err ""))].
    destruct (from_form body) as [r|]; [discriminate|]. intros _. exists 500%N. apply cf_set, cf_read. apply (cf_done (fun _ => RError 500) (Err "")).
Qed.

(** The answer, when nothing but the console is left to do. *)
Fixpoint cdue (p : cprog) : option reply :=
  match p with CDone r => Some r | CSet _ k | CRead k | CShow _ k | CNotify k => cdue k | _ => None end.
Lemma cf_due f p q r : cf f p q -> cdue p = Some r -> exists x, q = Done x /\ r = f x.
Proof. induction 1; cbn [cdue]; auto; try discriminate. intros E. injection E as <-. eauto. Qed.
Lemma cf_is_due f p x : cf f p (Done x) -> cdue p = Some (f x).
Proof. intros H. remember (Done x) as q eqn:E. induction H; cbn [cdue]; auto; try discriminate. now injection E as ->. Qed.
(** One action: of the console, or of the call. *)
Lemma cf_act f p q h m d n p' m' d' n' new : cf f p q -> cact h (m, d, n) p (m', d', n') p' new ->
  (m' = m /\ cf f p' q /\ cdue p' = cdue p /\ (new = [] \/ exists s, new = [EvShown h s]))
  \/ exists q' e, act m q m' q' e /\ cf f p' q' /\ cdue p = None /\ new = [EvDoes h e] /\ forall s r o, e = EvValidate s r o -> o = cli_validator s r.
Proof.
  intros F A. inversion A; subst; clear A; inversion F; subst; clear F; cbn [cdue]; try (left; split; [reflexivity|]; split; [try constructor; assumption|]; split; [reflexivity|]; solve [auto|eauto]).
  - right. eexists _, _. split; [apply act_get|]. split; [auto|]. split; [reflexivity|]. split; [reflexivity|]. discriminate.
  - right. eexists _, _. split; [eapply act_update; eassumption|]. split; [auto|]. split; [reflexivity|]. split; [reflexivity|]. discriminate.
  - right. eexists _, _. split; [apply act_validate|]. split; [unfold validating; apply cf_set, cf_read, cf_notify; auto|]. split; [reflexivity|]. split; [reflexivity|].
    intros s' r' o' E. injection E as <- <- <-. reflexivity.
Qed.

Definition cgot (l : list cevent) (u : uuid) (s : session) : Prop := exists h, In (EvDoes h (EvGet u (Ok s))) l.
Definition cruled (l : list cevent) (s : session) (r : auth_response) (o : outcome) : Prop := exists h, In (EvDoes h (EvValidate s r o)) l.
Lemma settles_effect h c e : ccall h = Some c -> (forall x, e <> EvReturn x) -> settles (EvDoes h e) = takes_effect (c, e).
Proof.
  intros C N. destruct h as [sid|sid body]; cbn [ccall] in C.
  - destruct (uuid_of_string sid); [|discriminate]. injection C as <-. destruct e as [s x|v st x|v [s|er]|v x|s r o|x]; first [reflexivity|now destruct (N x)].
  - destruct (utf8_valid body); [|discriminate]. destruct (uuid_of_string sid); [|discriminate]. destruct (from_form body); [|discriminate].
    injection C as <-. destruct e as [s x|v st x|v [s|er]|v x|s r o|x]; first [reflexivity|now destruct (N x)].
Qed.
Lemma act_not_return {A} m (p : prog A) m' p' e : act m p m' p' e -> forall x, e <> EvReturn x.
Proof. intros H x. destruct H; discriminate. Qed.
Lemma late_cons e l : none_late (e :: l) -> none_late l.
Proof. intros L n h u o E. apply (L (e :: n) h u o). now rewrite E. Qed.
Lemma late_app k l : none_late (k ++ l) -> none_late l.
Proof. induction k as [|e k IH]; [auto|]. intros H. apply IH. exact (late_cons _ _ H). Qed.
Lemma decided_mono u l l' : incl l l' -> decided u l -> decided u l'.
Proof. intros I (h & o & H). exists h, o. auto. Qed.

Definition up0 (_ : string) : option url := None.
Section S.
Variable m0 : store.

Record base (m : store) (l : list cevent) : Prop := {
  b_sorted : ssorted m;
  b_same : forall u s, st_get u m = Some s -> exists s0, st_get u m0 = Some s0 /\ same_request s0 s;
  b_got : forall u s, cgot l u s -> exists s0, st_get u m0 = Some s0 /\ same_request s0 s;
  b_ruled : forall s r o, cruled l s r o -> o = cli_validator s r;
  b_status : forall u s, st_get u m = Some s -> (progress (s_status s) <= 1)%N \/ decided u l;
  b_decided : forall u, decided u l -> exists s, st_get u m = Some s /\ progress (s_status s) = 3%N
}.
Definition console_only (e : cevent) : Prop := match e with EvDoes _ _ => False | _ => True end.
Lemma base_quiet m l e : console_only e -> base m l -> base m (e :: l).
Proof.
  intros Q [B1 B2 B3 B4 B5 B6].
  assert (D : forall u, decided u (e :: l) -> decided u l).
  { intros u (h & o & [->|H]); [destruct Q|]. now exists h, o. }
  constructor; auto.
  - intros u s (h & [->|H]); [destruct Q|]. apply B3. now exists h.
  - intros s r o (h & [->|H]); [destruct Q|]. apply B4. now exists h.
  - intros u s G. destruct (B5 u s G) as [P|P]; [now left|right]. eapply decided_mono; [|exact P]. intros z Hz. now right.
Qed.

(** What is left of a request: [E]: answers due to the call it makes. *)
Definition cstage (l : list cevent) (E : creq -> res answer -> Prop) (h : creq) (p : cprog) : Prop :=
  (ccall h = None /\ exists n, cf (fun _ => RError n) p (Done (Err "")) /\ cf (fun _ => RError n) (chandler h) (Done (Err "")))
  \/ exists c q, ccall h = Some c /\ cf (fin h) p q /\ stage up0 (cgot l) (cruled l) (fun _ => E h) c q.
Lemma cstage_mono l l' (E E' : creq -> res answer -> Prop) h p : incl l l' -> (forall x, E h x -> E' h x) -> cstage l E h p -> cstage l' E' h p.
Proof.
  intros Hl He [H|(c & q & C & F & S)]; [now left|]. right. exists c, q. split; [exact C|]. split; [exact F|].
  eapply stage_mono; [| | |exact S]; [intros u s (h' & H); exists h'; auto|intros s r o (h' & H); exists h'; auto|auto].
Qed.
Lemma cstage_start l E h : cstage l E h (chandler h).
Proof.
  destruct (ccall h) as [c|] eqn:C.
  - right. exists c, (code up0 c). split; [exact C|]. split; [now apply handler_cf|constructor].
  - left. split; [exact C|]. destruct (handler_none h C) as (n & F). eauto.
Qed.
(** The calls made here only read sessions, mark them as sent and complete them. *)
Lemma stage_events h c G V E q m m' q' e : ccall h = Some c -> stage up0 G V E c q -> act m q m' q' e ->
  (exists u x, e = EvGet u x /\ m' = m /\ forall s, x = Ok s -> st_get u m = Some s)
  \/ (exists u x k, e = EvUpdate u SentRequest x /\ update_status k u SentRequest m = (m', x))
  \/ (exists u o x k, e = EvUpdate u (Complete o) x /\ update_status k u (Complete o) m = (m', x))
  \/ (exists s r o, e = EvValidate s r o /\ m' = m).
Proof.
  intros C St Ha. assert (Ks : (exists u, c = Server.CRetrieve u) \/ exists u r, c = CVerify u r).
  { destruct h as [sid|sid body]; cbn [ccall] in C.
    - destruct (uuid_of_string sid); [|discriminate]. injection C as <-. eauto.
    - destruct (utf8_valid body); [|discriminate]. destruct (uuid_of_string sid); [|discriminate]. destruct (from_form body); [|discriminate]. injection C as <-. eauto. }
  assert (Gs : forall k u s, get_session k u m = Ok s -> st_get u m = Some s).
  { intros k u s. unfold get_session. destruct k; [discriminate|]. destruct (st_get u m); [|discriminate]. cbn. intros X. now injection X as ->. }
  destruct St as [c|u s Gu Su|u r s Gu|u r s o Gu Vo|c x Ex].
  - destruct Ks as [(u & ->)|(u & r & ->)]; cbn [code] in Ha; [unfold retrieve_code in Ha|unfold verify_code in Ha]; cbn [pmap] in Ha; inversion Ha; subst;
      left; eexists _, _; (split; [reflexivity|]; split; [reflexivity|]); intros s; apply Gs.
  - inversion Ha; subst. right; left. eauto 6.
  - inversion Ha; subst. right; right; right. eauto 6.
  - inversion Ha; subst. right; right; left. eauto 8.
  - inversion Ha.
Qed.
Lemma update_facts k u st m m' x : ssorted m -> update_status k u st m = (m', x) ->
  ssorted m' /\ ((exists e, x = Err e) /\ m' = m \/ x = Ok tt /\ exists s, st_get u m = Some s /\ m' = st_insert u (set_status s st) m).
Proof.
  intros S. unfold update_status. destruct k; [intros E; injection E as <- <-; eauto 6|]. destruct (st_get u m) as [s|]; intros E; injection E as <- <-; [|eauto 6].
  split; [now apply ssorted_insert|]. right. eauto.
Qed.
Lemma base_act m m' l h c q q' e G V E : base m l -> none_late (EvDoes h e :: l) -> ccall h = Some c -> stage up0 G V E c q -> act m q m' q' e ->
  (forall s r o, e = EvValidate s r o -> o = cli_validator s r) -> base m' (EvDoes h e :: l).
Proof.
  intros B L C St Ha Hv. pose proof B as [B1 B2 B3 B4 B5 B6].
  assert (Mo : forall u, decided u l -> decided u (EvDoes h e :: l)) by (intros u; apply decided_mono; intros z Hz; now right).
  assert (Same : (forall u o, e <> EvUpdate u (Complete o) (Ok tt)) -> forall u, decided u (EvDoes h e :: l) -> decided u l).
  { intros N u (h' & o & [H|H]); [injection H as _ ->; now destruct (N u o)|]. now exists h', o. }
  destruct (stage_events _ _ _ _ _ _ _ _ _ _ C St Ha) as [(u & x & -> & -> & Hx)|[(u & x & k & -> & Eu)|[(u & o & x & k & -> & Eu)|(s & r & o & -> & ->)]]].
  - constructor; auto.
    + intros v s (h' & [H|H]); [injection H as _ <- ->; apply B2; now apply Hx|]. apply B3. now exists h'.
    + intros s r o (h' & [H|H]); [discriminate H|]. apply B4. now exists h'.
    + intros v s Gv. destruct (B5 v s Gv) as [P|P]; [now left|right; auto].
    + intros v D. apply B6, Same; [discriminate|exact D].
  - destruct (update_facts _ _ _ _ _ _ B1 Eu) as [S' U]. constructor; auto.
    + intros v s Gv. destruct U as [[_ ->]|(-> & s1 & G1 & ->)]; [now apply B2|]. rewrite st_get_insert in Gv. destruct (N.eqb_spec v u) as [->|]; [|now apply B2].
      injection Gv as <-. destruct (B2 _ _ G1) as (s0 & G0 & Q). exists s0. split; [exact G0|]. destruct s1; exact Q.
    + intros v s (h' & [H|H]); [discriminate H|]. apply B3. now exists h'.
    + intros s r o (h' & [H|H]); [discriminate H|]. apply B4. now exists h'.
    + intros v s Gv. destruct U as [[_ ->]|(-> & s1 & G1 & ->)]; [destruct (B5 v s Gv) as [P|P]; [now left|right; auto]|].
      rewrite st_get_insert in Gv. destruct (N.eqb_spec v u) as [->|]; [|destruct (B5 v s Gv) as [P|P]; [now left|right; auto]].
      injection Gv as <-. left. destruct s1; cbn. lia.
    + intros v D. apply Same in D; [|discriminate]. destruct (B6 v D) as (s & Gv & P). destruct U as [[_ ->]|(-> & s1 & G1 & ->)]; [eauto|].
      rewrite st_get_insert. destruct (N.eqb_spec v u) as [->|]; [|eauto]. destruct (L [] h u l eq_refl D).
  - destruct (update_facts _ _ _ _ _ _ B1 Eu) as [S' U].
    assert (Ex : forall er, x = Err er -> forall v, decided v (EvDoes h (EvUpdate u (Complete o) x) :: l) -> decided v l).
    { intros er ->. apply Same. discriminate. }
    constructor; auto.
    + intros v s Gv. destruct U as [[_ ->]|(-> & s1 & G1 & ->)]; [now apply B2|]. rewrite st_get_insert in Gv. destruct (N.eqb_spec v u) as [->|]; [|now apply B2].
      injection Gv as <-. destruct (B2 _ _ G1) as (s0 & G0 & Q). exists s0. split; [exact G0|]. destruct s1; exact Q.
    + intros v s (h' & [H|H]); [discriminate H|]. apply B3. now exists h'.
    + intros s r o' (h' & [H|H]); [discriminate H|]. apply B4. now exists h'.
    + intros v s Gv. destruct U as [[_ ->]|(-> & s1 & G1 & ->)]; [destruct (B5 v s Gv) as [P|P]; [now left|right; auto]|].
      rewrite st_get_insert in Gv. destruct (N.eqb_spec v u) as [->|]; [|destruct (B5 v s Gv) as [P|P]; [now left|right; auto]].
      right. exists h, o. now left.
    + intros v D. destruct U as [[(er & ->) ->]|(-> & s1 & G1 & ->)]; [apply B6; eapply Ex; [reflexivity|exact D]|].
      rewrite st_get_insert. destruct (N.eqb_spec v u) as [->|Nv]; [eexists; split; [reflexivity|destruct s1; reflexivity]|].
      apply B6. destruct D as (h' & o' & [H|H]); [injection H as _ -> _; now destruct Nv|]. now exists h', o'.
  - constructor; auto.
    + intros v s' (h' & [H|H]); [discriminate H|]. apply B3. now exists h'.
    + intros s' r' o' (h' & [H|H]); [injection H as _ <- <- <-; now apply Hv|]. apply B4. now exists h'.
    + intros v s' Gv. destruct (B5 v s' Gv) as [P|P]; [now left|right; auto].
    + intros v D. apply B6, Same; [discriminate|exact D].
Qed.

(** One action of a request. *)
Lemma cact_stage m m' d d' n n' h p p' l new (E E' : creq -> res answer -> Prop) :
  base m l -> none_late (new ++ l) -> cact h (m, d, n) p (m', d', n') p' new -> cstage l E h p ->
  (forall x, E h x -> E' h x) ->
  (forall e, new = [EvDoes h e] -> lock_held e = true -> E' h (Err "try_lock")) ->
  (forall e x, new = [EvDoes h e] -> settles (EvDoes h e) = true -> undisturbed (chandler h) m = (m', fin h x) -> E' h x) ->
  base m' (new ++ l) /\ cstage (new ++ l) E' h p'
  /\ ((m' = m /\ settled (new ++ l) = settled l /\ cdue p' = cdue p /\ (forall z, In z new -> exists s, z = EvShown h s))
      \/ exists e, new = [EvDoes h e] /\ cdue p = None
         /\ if settles (EvDoes h e) then exists r, undisturbed (chandler h) m = (m', r) /\ cdue p' = Some r
            else m' = m /\ forall r, cdue p' = Some r -> lock_held e = true /\ exists k, r = RError k).
Proof.
  intros B L A St HE HK HR. destruct St as [(C & k & F & F0)|(c & q & C & F & St)].
  - destruct (cf_act _ _ _ _ _ _ _ _ _ _ _ _ F A) as [(-> & F' & D & Nw)|(q' & e & Ha & _)]; [|inversion Ha].
    assert (Qt : forall z, In z new -> exists s, z = EvShown h s) by (destruct Nw as [->|(s & ->)]; [intros z []|intros z [<-|[]]; eauto]).
    split; [destruct Nw as [->|(s & ->)]; [exact B|now apply base_quiet]|]. split; [left; split; [exact C|]; eauto|]. left. split; [reflexivity|].
    split; [destruct Nw as [->|(s & ->)]; reflexivity|]. auto.
  - destruct (cf_act _ _ _ _ _ _ _ _ _ _ _ _ F A) as [(-> & F' & D & Nw)|(q' & e & Ha & F' & D & -> & Hv)].
    + assert (Qt : forall z, In z new -> exists s, z = EvShown h s) by (destruct Nw as [->|(s & ->)]; [intros z []|intros z [<-|[]]; eauto]).
      split; [destruct Nw as [->|(s & ->)]; [exact B|now apply base_quiet]|]. split.
      * right. exists c, q. split; [exact C|]. split; [exact F'|]. eapply stage_mono; [| | |exact St].
        -- intros u s (h' & H). exists h'. apply in_or_app. now right.
        -- intros s r o (h' & H). exists h'. apply in_or_app. now right.
        -- auto.
      * left. split; [reflexivity|]. split; [destruct Nw as [->|(s & ->)]; reflexivity|]. auto.
    + cbn [app] in *. pose proof (base_act _ _ _ _ _ _ _ _ _ _ _ B L C St Ha Hv) as B'. pose proof B as [B1 B2 B3 B4 B5 B6].
      split; [exact B'|]. pose proof (act_not_return _ _ _ _ _ Ha) as Nr.
      destruct (act_stage up0 cli_validator (cgot l) (cruled l) (fun _ => E h) (fun _ => E' h) c q m m' q' e) as [H1 H2].
      * exact B1.
      * intros s s' r _. reflexivity.
      * exact B4.
      * intros u s s' Gs G. destruct (B3 _ _ Gs) as (s1 & G1 & Q1). destruct (B2 _ _ G) as (s2 & G2 & Q2). rewrite G1 in G2. injection G2 as <-.
        apply (same_trans _ s1); [now apply same_sym|exact Q2].
      * intros u s -> G. destruct (B5 u s G) as [P|P]; [exact P|]. destruct (L [] h u l eq_refl P).
      * intros _. exact (HK e eq_refl).
      * intros j x T X. apply (HR e x eq_refl); [now rewrite (settles_effect _ _ _ C Nr)|]. exact (cf_run _ _ _ (handler_cf up0 h c C) _ _ _ _ X).
      * exact Ha.
      * exact St.
      * split.
        -- right. exists c, q'. split; [exact C|]. split; [exact F'|]. eapply stage_mono; [| | |exact H2].
           ++ intros u s [(h' & H)| ->]; [exists h'; now right|exists h; now left].
           ++ intros s r o [(h' & H)| ->]; [exists h'; now right|exists h; now left].
           ++ auto.
        -- right. exists e. split; [reflexivity|]. split; [exact D|]. rewrite (settles_effect _ _ _ C Nr). destruct (takes_effect (c, e)).
           ++ destruct H1 as (j & x & X & ->). exists (fin h x). split; [exact (cf_run _ _ _ (handler_cf up0 h c C) _ _ _ _ X)|now apply cf_is_due].
           ++ destruct H1 as [-> H1]. split; [reflexivity|]. intros r Dr. destruct (cf_due _ _ _ _ F' Dr) as (x & -> & ->). destruct (H1 _ eq_refl) as [Lx Le].
              split; [exact Le|]. destruct x as [x|er]; [discriminate Lx|]. apply fin_error.
Qed.
Hypothesis sorted0 : ssorted m0.
Hypothesis status0 : forall u s, st_get u m0 = Some s -> s_status s = SentRequestByReference.
Lemma base_init : base m0 [].
Proof.
  constructor; auto.
  - intros u s G. exists s. split; [exact G|apply same_refl].
  - intros u s (h & []).
  - intros s r o (h & []).
  - intros u s G. left. rewrite (status0 _ _ G). cbn. lia.
  - intros u (h & o & []).
Qed.

Definition anyhow (_ : creq) (_ : res answer) : Prop := True.
Lemma settled_cons e l : settled (e :: l) = (match e with EvDoes h _ => if settles e then [h] else [] | _ => [] end) ++ settled l.
Proof. reflexivity. Qed.
Lemma csequential x : csteps (cs_init m0) x -> none_late (cs_log x) ->
  (exists l, attended m0 l (cs_store x) /\ map fst l = settled (cs_log x)) /\ base (cs_store x) (cs_log x)
  /\ forall h p, In (h, p) (cs_tasks x) -> cstage (cs_log x) anyhow h p.
Proof.
  remember (cs_init m0) as i. intros H. induction H as [i|i b c H IH S]; subst; intros L.
  - split; [exists []; split; [constructor|reflexivity]|]. split; [apply base_init|intros ? ? []].
  - specialize (IH eq_refl).
    destruct S as [m d ts n l h|m d n m' d' n' pre h p p' post o l new A|m d n pre h r post o l|m d n pre h p post o l|m d ts l|m d ts n l];
      cbn [cs_store cs_log cs_tasks] in *.
    + destruct (IH (late_cons _ _ L)) as (Sq & B & T). split; [exact Sq|]. split; [now apply base_quiet|].
      intros h' p' [E|Hp]; [injection E as <- <-; apply cstage_start|]. eapply cstage_mono; [| |apply T; exact Hp]; [intros z Hz; now right|auto].
    + destruct (IH (late_app _ _ L)) as ((q & Sq & Eq) & B & T).
      destruct (cact_stage m m' d d' n n' h p p' l new anyhow anyhow B L A) as (B' & St & Ef); [apply T, in_mid; now left|intros; exact Logic.I..|].
      split; [|split; [exact B'|]].
      * destruct Ef as [(-> & Es & _)|(e & -> & _ & Ef)]; [rewrite Es; eauto|]. cbn [app]. rewrite settled_cons. destruct (settles (EvDoes h e)).
        -- destruct Ef as (r & Er & _). exists ((h, r) :: q). split; [econstructor; eauto|]. cbn [map fst app]. now rewrite Eq.
        -- destruct Ef as [-> _]. eauto.
      * intros h' q' Hq. apply in_mid in Hq as [E|Hq]; [injection E as -> ->; exact St|].
        eapply cstage_mono; [| |apply T, in_mid; right; exact Hq]; [apply incl_appr, incl_refl|auto].
    + destruct (IH (late_cons _ _ L)) as (Sq & B & T). split; [exact Sq|]. split; [now apply base_quiet|].
      intros h' q' Hq. eapply cstage_mono; [| |apply T, in_mid; right; exact Hq]; [intros z Hz; now right|auto].
    + destruct (IH L) as (Sq & B & T). split; [exact Sq|]. split; [exact B|]. intros h' q' Hq. apply T, in_mid. now right.
    + destruct (IH (late_cons _ _ L)) as (Sq & B & T). split; [exact Sq|]. split; [now apply base_quiet|].
      intros h' q' Hq. eapply cstage_mono; [| |apply T; exact Hq]; [intros z Hz; now right|auto].
    + destruct (IH (late_cons _ _ L)) as (Sq & B & T). split; [exact Sq|]. split; [now apply base_quiet|].
      intros h' q' Hq. eapply cstage_mono; [| |apply T; exact Hq]; [intros z Hz; now right|auto].
Qed.

(** How an answer is accounted for by the history [l] since [x]. *)
Definition caccounted (x : csys) (l : list cevent) (h : creq) (r : reply) : Prop :=
  (held_up h l /\ exists n, r = RError n)
  \/ (forall m, undisturbed (chandler h) m = (m, r))
  \/ exists l1 e l2 q m, l = l1 ++ EvDoes h e :: l2 /\ settles (EvDoes h e) = true
       /\ attended m0 q m /\ map fst q = settled (l2 ++ cs_log x) /\ snd (undisturbed (chandler h) m) = r.
Lemma caccounted_cons x l h r z : caccounted x l h r -> caccounted x (z :: l) h r.
Proof.
  intros [((e & H & K) & N)|[H|(l1 & e & l2 & q & m & -> & H)]].
  - left. split; [exists e; split; [now right|exact K]|exact N].
  - right; now left.
  - right; right. exists (z :: l1), e, l2, q, m. split; [reflexivity|exact H].
Qed.
Lemma caccounted_app x k l h r : caccounted x l h r -> caccounted x (k ++ l) h r.
Proof. induction k as [|z k IH]; [auto|]. intros H. apply caccounted_cons. auto. Qed.
Lemma cstage_done l E h p r : cstage l E h p -> cdue p = Some r -> (exists x, E h x /\ r = fin h x) \/ forall m, undisturbed (chandler h) m = (m, r).
Proof.
  intros [(C & n & F & F0)|(c & q & C & F & S)] D.
  - right. intros m. destruct (cf_due _ _ _ _ F D) as (x & X & ->). exact (cf_run _ _ _ F0 _ _ _ _ eq_refl).
  - destruct (cf_due _ _ _ _ F D) as (x & -> & ->). destruct (stage_done up0 cli_validator _ _ _ _ _ S) as [H|H]; [eauto|]. right. intros m.
    exact (cf_run _ _ _ (handler_cf up0 h c C) _ _ _ _ (H m)).
Qed.
Definition at_rest (h : creq) (x : csys) : Prop := forall p, ~ In (h, p) (cs_tasks x).
Lemma csteps_trans a b c : csteps a b -> csteps b c -> csteps a c.
Proof. intros A B. induction B as [|x y z B IH S]; [exact A|]. eapply csteps_snoc; [apply IH; exact A|exact S]. Qed.
Lemma canswered x y : csteps (cs_init m0) x -> csteps x y -> none_late (cs_log y) ->
  exists l, cs_log y = l ++ cs_log x
  /\ (forall h p, In (h, p) (cs_tasks y) -> cstage (cs_log y) (fun h z => caccounted x l h (fin h z)) h p \/ ~ at_rest h x)
  /\ forall newer h r older, l = newer ++ EvAnswered h r :: older -> ~ at_rest h x \/ caccounted x older h r.
Proof.
  intros R H. induction H as [x|x b d H IH S]; intros L.
  - exists []. split; [reflexivity|]. split; [|intros [|? ?] ? ? ? E; discriminate E]. intros h p Hp. right. intros N. exact (N p Hp).
  - specialize (IH R). pose proof (csteps_trans _ _ _ R H) as Rb.
    assert (Plain : forall e l ts ts', (forall h r, e <> EvAnswered h r) ->
      (exists k, l = k ++ cs_log x /\ (forall h p, In (h, p) ts -> cstage l (fun h z => caccounted x k h (fin h z)) h p \/ ~ at_rest h x)
        /\ forall newer h r older, k = newer ++ EvAnswered h r :: older -> ~ at_rest h x \/ caccounted x older h r) ->
      (forall h p, In (h, p) ts' -> p = chandler h \/ In (h, p) ts) ->
      exists k, e :: l = k ++ cs_log x /\ (forall h p, In (h, p) ts' -> cstage (e :: l) (fun h z => caccounted x k h (fin h z)) h p \/ ~ at_rest h x)
        /\ forall newer h r older, k = newer ++ EvAnswered h r :: older -> ~ at_rest h x \/ caccounted x older h r).
    { intros e l ts ts' Ne (k & Hk & T & A) Sub. exists (e :: k). split; [now rewrite Hk|]. split.
      - intros h p Hp. destruct (Sub _ _ Hp) as [->|Hp']; [left; apply cstage_start|]. destruct (T _ _ Hp') as [St|Bu]; [left|now right].
        eapply cstage_mono; [| |exact St]; [intros z Hz; now right|]. intros z. apply caccounted_cons.
      - intros [|z nw] h r ol E; cbn [app] in E; injection E as E1 E2; [now destruct (Ne h r)|]. subst. eapply A; reflexivity. }
    destruct S as [m d ts n l h|m d n m' d' n' pre h p p' post o l new A0|m d n pre h r post o l|m d n pre h p post o l|m d ts l|m d ts n l];
      cbn [cs_store cs_log cs_tasks] in *.
    + apply (Plain _ _ ts); [discriminate|exact (IH (late_cons _ _ L))|]. intros h' p' [E|Hp]; [injection E as <- <-; now left|now right].
    + destruct (IH (late_app _ _ L)) as (k & Hk & T & A). clear IH Plain.
      destruct (csequential _ Rb (late_app _ _ L)) as ((q & Sq & Eq) & B & _). cbn [cs_store cs_log] in Sq, Eq, B.
      exists (new ++ k). split; [now rewrite Hk, app_assoc|].
      assert (Na : forall h' r', ~ In (EvAnswered h' r') new) by (intros h' r'; inversion A0; subst; cbn [In]; intros X; repeat destruct X as [X|X]; try discriminate X; destruct X).
      split.
      * intros h' q' Hq. apply in_mid in Hq as [E|Hq].
        -- injection E as -> ->. destruct (T h p) as [St|Bu]; [apply in_mid; now left| |now right]. left.
           eapply (cact_stage m m' d d' n n' h p p' l new _ (fun h z => caccounted x (new ++ k) h (fin h z)) B L A0 St).
           ++ intros z. apply caccounted_app.
           ++ intros e -> Lk. left. split; [exists e; split; [now left|exact Lk]|apply fin_error].
           ++ intros e z -> Te Er. right; right. exists [], e, k, q, m. rewrite <- Hk, Er. cbn [app snd]. auto.
        -- destruct (T h' q') as [St|Bu]; [apply in_mid; now right| |now right]. left.
           eapply cstage_mono; [| |exact St]; [apply incl_appr, incl_refl|]. intros z. apply caccounted_app.
      * intros nw h' r' ol E.
        assert (K : exists nw', k = nw' ++ EvAnswered h' r' :: ol).
        { clear - E Na. revert nw E. induction new as [|e new IH]; intros nw E; [eauto|]. destruct nw as [|z nw]; cbn [app] in E; injection E as E1 E2.
          - destruct (Na h' r'). now left.
          - apply (IH (fun a b X => Na a b (or_intror X)) nw E2). }
        destruct K as (nw' & K). exact (A _ _ _ _ K).
    + destruct (IH (late_cons _ _ L)) as (k & Hk & T & A). exists (EvAnswered h r :: k). split; [now rewrite Hk|]. split.
      * intros h' q' Hq. destruct (T h' q') as [St|Bu]; [apply in_mid; now right| |now right]. left.
        eapply cstage_mono; [| |exact St]; [intros z Hz; now right|]. intros z. apply caccounted_cons.
      * intros [|z nw] h' r' ol E; cbn [app] in E; injection E as E1 E2; [|subst; eapply A; reflexivity]. subst.
        destruct (T h' (CDone r')) as [St|Bu]; [apply in_mid; now left| |now left]. right.
        destruct (cstage_done _ _ _ _ _ St eq_refl) as [(z & Az & ->)|Sd]; [exact Az|]. right. now left.
    + destruct (IH L) as (k & Hk & T & A). exists k. split; [exact Hk|]. split; [|exact A]. intros h' p' Hp. apply T, in_mid. now right.
    + apply (Plain _ _ ts); [discriminate|exact (IH (late_cons _ _ L))|auto].
    + apply (Plain _ _ ts); [discriminate|exact (IH (late_cons _ _ L))|auto].
Qed.

(* ------------------------------------------------------------ all requests answered *)
Definition owed (t : creq * cprog) : list (creq * reply) := match cdue (snd t) with Some r => [(fst t, r)] | None => [] end.
Lemma owed_mid pre t post : flat_map owed (pre ++ t :: post) = flat_map owed pre ++ owed t ++ flat_map owed post.
Proof. rewrite flat_map_app. reflexivity. Qed.
Lemma answers_cons e l : answers (e :: l) = answers l ++ match e with EvAnswered h r => [(h, r)] | _ => [] end.
Proof. unfold answers. cbn [rev]. rewrite flat_map_app. cbn [flat_map]. now rewrite app_nil_r. Qed.
Lemma kept_reachable x : all_kept m0 x -> csteps (cs_init m0) x.
Proof. induction 1 as [|x y H IH S _]; [apply csteps_refl|]. eapply csteps_snoc; [exact IH|exact S]. Qed.
Definition excused (l : list cevent) (extra : list (creq * reply)) : Prop := forall h r, In (h, r) extra -> held_up h l /\ exists n, r = RError n.
Lemma excused_mono l l' extra : incl l l' -> excused l extra -> excused l' extra.
Proof. intros I H h r X. destruct (H h r X) as [(e & Hi & K) N]. split; [exists e; split; [now apply I|exact K]|exact N]. Qed.
Lemma carranged x : all_kept m0 x -> none_late (cs_log x) ->
  exists l extra, attended m0 l (cs_store x) /\ excused (cs_log x) extra
    /\ Permutation (answers (cs_log x) ++ flat_map owed (cs_tasks x)) (l ++ extra).
Proof.
  intros U. induction U as [|x y U IH S N]; intros L.
  - exists [], []. split; [constructor|]. split; [intros h r []|reflexivity].
  - pose proof (kept_reachable _ U) as R. assert (Tl : forall (e : cevent) l, incl l (e :: l)) by (intros e l z Hz; now right).
    destruct S as [m d ts n l h|m d n m' d' n' pre h p p' post o l new A0|m d n pre h r post o l|m d n pre h p post o l|m d ts l|m d ts n l];
      cbn [cs_store cs_log cs_tasks] in *.
    + destruct (IH (late_cons _ _ L)) as (q & ex & Sq & Ax & Pq). cbn [flat_map]. rewrite answers_cons, app_nil_r. unfold owed at 1. cbn [fst snd].
      destruct (cdue (chandler h)) as [r|] eqn:D.
      * exists ((h, r) :: q), ex. split; [econstructor; [exact Sq|]|].
        { destruct (cstage_done l (fun _ _ => False) h _ _ (cstage_start _ _ _) D) as [(z & Z & _)|Z]; [destruct Z|apply Z]. }
        split; [exact (excused_mono _ _ _ (Tl _ _) Ax)|]. cbn [app]. symmetry. apply Permutation_cons_app. now symmetry.
      * exists q, ex. split; [exact Sq|]. split; [exact (excused_mono _ _ _ (Tl _ _) Ax)|exact Pq].
    + destruct (IH (late_app _ _ L)) as (q & ex & Sq & Ax & Pq). clear IH.
      destruct (csequential _ R (late_app _ _ L)) as (_ & B & T). cbn [cs_tasks cs_log cs_store] in B, T.
      destruct (cact_stage m m' d d' n n' h p p' l new anyhow anyhow B L A0) as (_ & _ & Ef); [apply T, in_mid; now left|intros; exact Logic.I..|].
      assert (Ax' : excused (new ++ l) ex) by (eapply excused_mono; [apply incl_appr, incl_refl|exact Ax]).
      rewrite owed_mid in *. destruct Ef as [(-> & _ & D & Sh)|(e & -> & D & Ef)].
      * assert (An : answers (new ++ l) = answers l).
        { clear - Sh. induction new as [|z new IH]; [reflexivity|]. cbn [app]. rewrite answers_cons. destruct (Sh z (or_introl eq_refl)) as (s & ->). rewrite app_nil_r.
          apply IH. intros z Hz. apply Sh. now right. }
        exists q, ex. split; [exact Sq|]. split; [exact Ax'|]. rewrite An. unfold owed at 2. cbn [fst snd]. rewrite D. exact Pq.
      * cbn [app] in *. rewrite answers_cons, app_nil_r. assert (D0 : owed (h, p) = []) by (unfold owed; cbn [snd]; now rewrite D). rewrite D0 in Pq. cbn [app] in Pq.
        destruct (settles (EvDoes h e)).
        -- destruct Ef as (r & Er & D'). exists ((h, r) :: q), ex. split; [econstructor; eauto|]. split; [exact Ax'|].
           unfold owed at 2. cbn [snd fst]. rewrite D'. cbn [app]. rewrite app_assoc in *. symmetry. apply Permutation_cons_app. now symmetry.
        -- destruct Ef as [-> Nl]. unfold owed at 2. cbn [snd fst]. destruct (cdue p') as [r|] eqn:D'; [|exists q, ex; auto].
           destruct (Nl r eq_refl) as [Lk En]. exists q, ((h, r) :: ex). split; [exact Sq|]. split.
           ++ intros h1 r1 [X|X]; [injection X as <- <-; split; [exists e; split; [now left|exact Lk]|exact En]|]. exact (Ax' _ _ X).
           ++ cbn [app]. rewrite app_assoc in *. etransitivity; [|apply Permutation_middle]. symmetry. apply Permutation_cons_app. now symmetry.
    + destruct (IH (late_cons _ _ L)) as (q & ex & Sq & Ax & Pq). clear IH.
      exists q, ex. split; [exact Sq|]. split; [exact (excused_mono _ _ _ (Tl _ _) Ax)|]. rewrite answers_cons, flat_map_app. rewrite owed_mid in Pq. unfold owed in Pq at 2. cbn [snd fst cdue] in Pq.
      rewrite <- Pq. rewrite <- !app_assoc. apply Permutation_app_head. apply Permutation_app_swap_app.
    + rewrite !app_length in N. cbn [length] in N. lia.
    + destruct (IH (late_cons _ _ L)) as (q & ex & Sq & Ax & Pq). exists q, ex. split; [exact Sq|]. split; [exact (excused_mono _ _ _ (Tl _ _) Ax)|].
      rewrite answers_cons, app_nil_r. exact Pq.
    + destruct (IH (late_cons _ _ L)) as (q & ex & Sq & Ax & Pq). exists q, ex. split; [exact Sq|]. split; [exact (excused_mono _ _ _ (Tl _ _) Ax)|].
      rewrite answers_cons, app_nil_r. exact Pq.
Qed.

(* ------------------------------------------------------------ wallets that answer once they have the request *)
(** The next operation on the store is to mark [u] as sent. *)
Fixpoint cmarks (u : uuid) (p : cprog) : Prop :=
  match p with
  | CUpdate u' SentRequest _ => u' = u
  | CSet _ k | CRead k | CShow _ k | CNotify k => cmarks u k
  | _ => False
  end.
Lemma cf_marks f p q u : cf f p q -> cmarks u p <-> marks u q.
Proof. induction 1 as [| | | | | |v st k k' F|]; cbn [cmarks marks]; tauto. Qed.
Lemma stage_marks_read G V E c q : stage up0 G V E c q -> marks_read q.
Proof. intros H. destruct H; [apply code_marks|..]; cbn; auto. Qed.
Lemma stage_marks G V E c q u : stage up0 G V E c q -> marks u q -> c = Server.CRetrieve u.
Proof. intros H M. destruct H as [c|v s Gu Su|v r s Gu|v r s o Gu Vo|c x Ex]; [destruct (proj1 (code_marks up0 c) u M)|cbn in M; now rewrite M|destruct M..]. Qed.
Lemma ccall_retrieve h u : ccall h = Some (Server.CRetrieve u) -> exists sid, h = CFetch sid /\ uuid_of_string sid = Some u.
Proof.
  destruct h as [sid|sid body]; cbn [ccall].
  - destruct (uuid_of_string sid) as [w|] eqn:E; [|discriminate]. cbn [option_map]. intros X. injection X as ->. eauto.
  - destruct (utf8_valid body); [|discriminate]. destruct (uuid_of_string sid); [|discriminate]. destruct (from_form body); discriminate.
Qed.
Lemma handler_unmarked h u : ~ cmarks u (chandler h).
Proof.
  intros M. destruct (ccall h) as [c|] eqn:C.
  - apply (cf_marks _ _ _ _ (handler_cf up0 h c C)) in M. cbv beta in M. exact (proj1 (code_marks up0 c) u M).
  - destruct (handler_none h C) as (n & F). apply (cf_marks _ _ _ _ F) in M. destruct M.
Qed.
Lemma before_late x : fetched_before m0 x -> csteps (cs_init m0) x /\ none_late (cs_log x)
  /\ forall h p u, In (h, p) (cs_tasks x) -> cmarks u p -> ~ decided u (cs_log x).
Proof.
  induction 1 as [|x y F (R & L & P) S C].
  - split; [apply csteps_refl|]. split; [intros [|? ?] ? ? ? E; discriminate E|intros ? ? ? []].
  - assert (Ry : csteps (cs_init m0) y) by (eapply csteps_snoc; [exact R|exact S]). split; [exact Ry|].
    destruct (csequential _ R L) as (_ & B & T).
    assert (Plain : forall e l, (forall h u s x, e <> EvDoes h (EvUpdate u s x)) -> none_late l -> none_late (e :: l) /\ forall u, decided u (e :: l) -> decided u l).
    { intros e l Ne Ll. split.
      - intros [|z nw] h u ol E; cbn [app] in E; injection E as E1 E2; [now destruct (Ne h u SentRequest (Ok tt))|]. exact (Ll nw h u ol E2).
      - intros u (h & o & [->|H]); [now destruct (Ne h u (Complete o) (Ok tt))|]. now exists h, o. }
    destruct S as [m d ts n l h|m d n m' d' n' pre h p p' post o l new A0|m d n pre h r post o l|m d n pre h p post o l|m d ts l|m d ts n l];
      cbn [cs_store cs_log cs_tasks] in *.
    + destruct (Plain (EvArrived h) l) as [Pl Pd]; [discriminate|exact L|]. split; [exact Pl|].
      intros h' p' u [E|Hp] M D; [injection E as <- <-; exact (handler_unmarked _ _ M)|]. exact (P _ _ _ Hp M (Pd _ D)).
    + assert (Ip : In (h, p) (pre ++ (h, p) :: post)) by (apply in_mid; now left).
      assert (Quiet : (forall z, In z new -> exists s, z = EvShown h s) -> (forall u, cmarks u p' -> cmarks u p) ->
        none_late (new ++ l) /\ forall h' q' u, In (h', q') (pre ++ (h, p') :: post) -> cmarks u q' -> ~ decided u (new ++ l)).
      { intros Sh Nm.
        assert (X : none_late (new ++ l) /\ forall u, decided u (new ++ l) -> decided u l).
        { clear - Sh L Plain. induction new as [|z new IH]; [auto|]. destruct (Sh z (or_introl eq_refl)) as (s & ->). destruct IH as [I1 I2]; [intros z Hz; apply Sh; now right|].
          destruct (Plain (EvShown h s) (new ++ l)) as [Pl Pd]; [discriminate|exact I1|]. split; [exact Pl|]. intros u D. apply I2, Pd, D. }
        destruct X as [X1 X2]. split; [exact X1|]. intros h' q' u H M D. apply X2 in D. apply in_mid in H as [E|H]; [injection E as -> ->; exact (P _ _ _ Ip (Nm u M) D)|].
        refine (P h' q' u _ M D). apply in_mid. now right. }
      destruct (T h p Ip) as [(C0 & k & F0 & _)|(c & q & C0 & F0 & St)].
      * destruct (cf_act _ _ _ _ _ _ _ _ _ _ _ _ F0 A0) as [(-> & F' & _ & Nw)|(q' & e & Ha & _)]; [|inversion Ha]. apply Quiet.
        -- destruct Nw as [->|(s & ->)]; [intros z []|intros z [<-|[]]; eauto].
        -- intros u M. apply (cf_marks _ _ _ _ F') in M. destruct M.
      * destruct (cf_act _ _ _ _ _ _ _ _ _ _ _ _ F0 A0) as [(-> & F' & _ & Nw)|(q' & e & Ha & F' & _ & -> & Hv)].
        -- apply Quiet; [destruct Nw as [->|(s & ->)]; [intros z []|intros z [<-|[]]; eauto]|].
           intros u M. apply (cf_marks _ _ _ _ F0). now apply (cf_marks _ _ _ _ F').
        -- clear Quiet. cbn [app] in *. destruct (act_marks _ _ _ _ _ Ha (stage_marks_read _ _ _ _ _ St)) as [_ K]. split.
           ++ intros [|z nw] h' u ol E; cbn [app] in E; injection E as E1 E2; [|exact (L nw h' u ol E2)]. subst.
              apply (P h' p u Ip). apply (cf_marks _ _ _ _ F0). inversion Ha; subst; reflexivity.
           ++ intros h' q1 u H M D.
              assert (D' : decided u l \/ exists o1, e = EvUpdate u (Complete o1) (Ok tt)).
              { destruct D as (h1 & o1 & [D|D]); [injection D as _ ->; right; eauto|left; now exists h1, o1]. }
              apply in_mid in H as [E|H].
              ** injection E as -> ->. apply (cf_marks _ _ _ _ F') in M. destruct (K u M) as (Em & s & Gs & Ss). destruct D' as [D'|(o1 & ->)].
                 --- destruct (b_decided _ _ B u D') as (s' & Gs' & Ps). rewrite Gs in Gs'. injection Gs' as <-. rewrite Ss in Ps. discriminate Ps.
                 --- pose proof (stage_marks_read _ _ _ _ _ St) as Mr. clear - Ha M Mr. inversion Ha; subst. destruct (Mr (Ok tt)) as [Nm _]. exact (Nm u M).
              ** assert (Hin : In (h', q1) (pre ++ (h, p) :: post)) by (apply in_mid; now right).
                 destruct D' as [D'|(o1 & ->)]; [exact (P _ _ _ Hin M D')|].
                 destruct (T h' q1 Hin) as [(_ & k & F1 & _)|(c1 & q2 & C1 & F1 & St1)]; apply (cf_marks _ _ _ _ F1) in M; [destruct M|].
                 pose proof (stage_marks _ _ _ _ _ _ St1 M) as ->. destruct (ccall_retrieve _ _ C1) as (sid & -> & Us). exact (C h u o1 eq_refl sid q1 Us Hin).
    + destruct (Plain (EvAnswered h r) l) as [Pl Pd]; [discriminate|exact L|]. split; [exact Pl|]. intros h' p' u H M D. refine (P h' p' u _ M (Pd _ D)). apply in_mid. now right.
    + split; [exact L|]. intros h' p' u H. apply (P h' p' u), in_mid. now right.
    + destruct (Plain EvCompleted l) as [Pl Pd]; [discriminate|exact L|]. split; [exact Pl|]. intros h' p' u H M D. exact (P h' p' u H M (Pd _ D)).
    + destruct (Plain EvInterrupted l) as [Pl Pd]; [discriminate|exact L|]. split; [exact Pl|]. intros h' p' u H M D. exact (P h' p' u H M (Pd _ D)).
Qed.
End S.

Lemma setup_facts up public types fresh id m dest : cli_setup up public types fresh id = (m, Ok dest) ->
  ssorted m /\ forall u s, st_get u m = Some s -> s_status s = SentRequestByReference.
Proof.
  intros H. split.
  - unfold cli_setup in H. match type of H with match ?z with _ => _ end = _ => destruct z as [[[v wm] q]|e] end; [|discriminate H].
    unfold build_with_session_id, run_plain in H. unfold build_code in H. destruct (rb_prepare up _ id wm) as [[s d]|e]; [|discriminate H].
    cbn in H. injection H as <- _. repeat constructor.
  - destruct (c80_setup_pf _ _ _ _ _ _ _ H) as (q & s0 & base & r & base' & rq & w & ep & _ & _ & _ & _ & _ & G & O & St & _).
    intros u s Gu. destruct (N.eq_dec u id) as [->|N0]; [rewrite G in Gu; injection Gu as <-; exact St|]. rewrite (O u N0) in Gu. discriminate.
Qed.

(** C139: whatever the interleaving of requests to the command line verifier, and wherever it is stopped, if the request is not
    marked as sent after a verdict was recorded, the session is the one left by the requests that took effect, each attended
    to alone, one after the other, in the order in which they took effect. *)
Lemma c139_sequential_pf
  : forall (url_parse : string -> option url) (public : url) (types : list string) (fresh id : uuid) (m : store) (dest : url) (x : csys),
    cli_setup url_parse public types fresh id = (m, Ok dest) -> csteps (cs_init m) x -> none_late (cs_log x) ->
    exists l, attended m l (cs_store x) /\ map fst l = settled (cs_log x).
Proof.
  intros up public types fresh id m dest x H R L. destruct (setup_facts _ _ _ _ _ _ _ H) as [S0 St0].
  exact (proj1 (csequential m S0 St0 x R L)).
Qed.

(** C139: and each request got the answer it gets in that sequence: unless it found the lock held and was answered with an
    error, or is answered so whatever the session, it took effect at a moment between its arrival and its answer, and its answer
    is the one it gets when attended to alone after the requests before that moment. *)
Lemma c139_answers_pf
  : forall (url_parse : string -> option url) (public : url) (types : list string) (fresh id : uuid) (m : store) (dest : url) (x y : csys)
           (h : creq) (r : reply) (newer older : list cevent),
    cli_setup url_parse public types fresh id = (m, Ok dest) -> csteps (cs_init m) x -> csteps x y -> none_late (cs_log y) ->
    (forall p, ~ In (h, p) (cs_tasks x)) ->
    cs_log y = newer ++ EvAnswered h r :: older ++ cs_log x ->
    (held_up h older /\ exists n, r = RError n)
    \/ (forall m', undisturbed (chandler h) m' = (m', r))
    \/ exists l1 e l2 q m', older = l1 ++ EvDoes h e :: l2 /\ settles (EvDoes h e) = true
         /\ attended m q m' /\ map fst q = settled (l2 ++ cs_log x) /\ snd (undisturbed (chandler h) m') = r.
Proof.
  intros up public types fresh id m dest x y h r n o H R S L N E. destruct (setup_facts _ _ _ _ _ _ _ H) as [S0 St0].
  destruct (canswered m S0 St0 x y R S L) as (l & Hl & _ & A).
  assert (El : l = n ++ EvAnswered h r :: o).
  { apply (app_inv_tail (cs_log x)). rewrite <- Hl, E, <- app_assoc. reflexivity. }
  destruct (A n h r o El) as [B|Ac]; [destruct (B N)|exact Ac].
Qed.

(** C139: when no request was dropped and all have been answered, the requests with their answers, error answers apart of
    requests that found the lock held, can be arranged in an order in which, attended to alone one after the other, they get
    these very answers and leave this very session. *)
Lemma c139_arranged_pf
  : forall (url_parse : string -> option url) (public : url) (types : list string) (fresh id : uuid) (m : store) (dest : url) (x : csys),
    cli_setup url_parse public types fresh id = (m, Ok dest) -> all_kept m x -> cs_tasks x = [] -> none_late (cs_log x) ->
    exists l extra, attended m l (cs_store x) /\ Permutation (answers (cs_log x)) (l ++ extra)
      /\ forall h r, In (h, r) extra -> held_up h (cs_log x) /\ exists n, r = RError n.
Proof.
  intros up public types fresh id m dest x H U T L. destruct (setup_facts _ _ _ _ _ _ _ H) as [S0 St0].
  destruct (carranged m S0 St0 x U L) as (l & ex & O & A & P). exists l, ex. split; [exact O|]. split; [|exact A].
  rewrite T in P. cbn [flat_map] in P. now rewrite app_nil_r in P.
Qed.

(** C139: the condition is met when no fetch of the request is under way while a verdict on the response is recorded. *)
Lemma c139_in_time_pf
  : forall (url_parse : string -> option url) (public : url) (types : list string) (fresh id : uuid) (m : store) (dest : url) (x : csys),
    cli_setup url_parse public types fresh id = (m, Ok dest) -> fetched_before m x ->
    none_late (cs_log x) /\ exists l, attended m l (cs_store x) /\ map fst l = settled (cs_log x).
Proof.
  intros up public types fresh id m dest x H F. destruct (setup_facts _ _ _ _ _ _ _ H) as [S0 St0].
  destruct (before_late m S0 St0 x F) as (R & L & _). split; [exact L|]. exact (proj1 (csequential m S0 St0 x R L)).
Qed.

(* ------------------------------------------------------------ a fetch and a response, overlapping *)
Definition toy_fetch : creq := CFetch (uuid_str 7%N).
Lemma toy_fetch_handler : chandler toy_fetch = ExConsole.within (retrieve_code 7%N) (fun x =>
  match x with Ok jwt => CSet DFetched (CRead (CDone (RJwt jwt))) | Err _ => CDone (RError 500) end).
Proof.
  unfold toy_fetch, chandler. destruct toy_posts as (sid & body & E & _ & U & _). unfold toy_post in E. injection E as <- _. now rewrite U.
Qed.
Lemma toy_post_handler : chandler toy_post = CSet DReceived (CRead (ExConsole.within (verify_code 7%N toy_response) (fun x => CDone (response_reply x)))).
Proof. destruct toy_posts as (sid & body & -> & V & U & F). now apply response_handler. Qed.
Definition toy_verdict : outcome := OSuccess (JObj [("credential_query_ids", JArr []); ("credentials_received", JInt 0)]).
Lemma toy_judged s : cli_validator s toy_response = toy_verdict.
Proof. reflexivity. Qed.
Definition after_mark (s : session) (x : res unit) : cprog :=
  match rmap (fun _ => s_jwt s) x with Ok jwt => CSet DFetched (CRead (CDone (RJwt jwt))) | Err _ => CDone (RError 500) end.
Definition marking (s : session) : cprog := CUpdate 7%N SentRequest (after_mark s).
Definition recording : cprog := CUpdate 7%N (Complete toy_verdict) (fun x => CDone (response_reply x)).

Section K.
Variable m0 : store.
Lemma k_first m d n o l h p ts m' d' n' p' new : all_kept m0 (mk_csys m d ((h, p) :: ts) n o l) ->
  cact h (m, d, n) p (m', d', n') p' new -> all_kept m0 (mk_csys m' d' ((h, p') :: ts) n' o (new ++ l)).
Proof. intros X A. eapply kept_step; [exact X|exact (cs_act m d n m' d' n' [] h p p' ts o l new A)|]. cbn. lia. Qed.
Lemma k_second m d n o l t h p ts m' d' n' p' new : all_kept m0 (mk_csys m d (t :: (h, p) :: ts) n o l) ->
  cact h (m, d, n) p (m', d', n') p' new -> all_kept m0 (mk_csys m' d' (t :: (h, p') :: ts) n' o (new ++ l)).
Proof. intros X A. eapply kept_step; [exact X|exact (cs_act m d n m' d' n' [t] h p p' ts o l new A)|]. cbn. lia. Qed.
Lemma k_arrive m d ts n l h : all_kept m0 (mk_csys m d ts n false l) -> all_kept m0 (mk_csys m d ((h, chandler h) :: ts) n false (EvArrived h :: l)).
Proof. intros X. eapply kept_step; [exact X|constructor|]. cbn. lia. Qed.
Lemma k_answer m d n o l h a ts : all_kept m0 (mk_csys m d ((h, CDone a) :: ts) n o l) -> all_kept m0 (mk_csys m d ts n o (EvAnswered h a :: l)).
Proof. intros X. eapply kept_step; [exact X|exact (cs_answer m d n [] h a ts o l)|]. cbn. lia. Qed.
End K.
Definition overlap_log (s : session) : list cevent :=
  [EvShown toy_post (shown_for toy_verdict); EvDoes toy_post (EvValidate s toy_response toy_verdict); EvDoes toy_post (EvGet 7%N (Ok s));
   EvShown toy_post DReceived; EvArrived toy_post; EvDoes toy_fetch (EvGet 7%N (Ok s)); EvArrived toy_fetch].
Lemma overlap m s : st_get 7%N m = Some s -> s_status s = SentRequestByReference ->
  all_kept m (mk_csys m (shown_for toy_verdict) [(toy_post, recording); (toy_fetch, marking s)] true false (overlap_log s)).
Proof.
  intros G St. pose proof (kept_init m) as X. unfold cs_init in X.
  apply (k_arrive _ _ _ _ _ _ toy_fetch) in X. rewrite toy_fetch_handler in X. unfold retrieve_code in X. cbn [ExConsole.within] in X.
  eapply k_first in X; [|apply (c_get _ _ _ _ _ _ false)]. unfold get_session in X. rewrite G in X. cbn [ok_or] in X. rewrite St in X. cbn [status_lt status_cmp status_discr N.compare ExConsole.within] in X.
  apply (k_arrive _ _ _ _ _ _ toy_post) in X. rewrite toy_post_handler in X.
  eapply k_first in X; [|apply c_set]. eapply k_first in X; [|apply c_read]. eapply k_first in X; [|apply c_show].
  unfold verify_code in X. cbn [ExConsole.within] in X. eapply k_first in X; [|apply (c_get _ _ _ _ _ _ false)]. unfold get_session in X. rewrite G in X. cbn [ok_or ExConsole.within] in X.
  eapply k_first in X; [|apply c_validate]. unfold validating in X.
  eapply k_first in X; [|apply c_set]. eapply k_first in X; [|apply c_read]. eapply k_first in X; [|apply c_show]. eapply k_first in X; [|apply c_notify].
  exact X.
Qed.
(** The mark before the verdict, and after it. *)
Definition in_time_log (s : session) : list cevent :=
  [EvAnswered toy_fetch (RJwt (s_jwt s)); EvAnswered toy_post (RJson 200 (JObj [])); EvShown toy_fetch DFetched;
   EvDoes toy_post (EvUpdate 7%N (Complete toy_verdict) (Ok tt)); EvDoes toy_fetch (EvUpdate 7%N SentRequest (Ok tt))] ++ overlap_log s.
Definition too_late_log (s : session) : list cevent :=
  [EvAnswered toy_fetch (RJwt (s_jwt s)); EvAnswered toy_post (RJson 200 (JObj [])); EvShown toy_fetch DFetched;
   EvDoes toy_fetch (EvUpdate 7%N SentRequest (Ok tt)); EvDoes toy_post (EvUpdate 7%N (Complete toy_verdict) (Ok tt))] ++ overlap_log s.
Lemma put_again u s s' m : st_get u (st_insert u s m) = Some s' -> s' = s.
Proof. rewrite st_get_insert, N.eqb_refl. intros E. now injection E as <-. Qed.
Lemma run_in_time m s : st_get 7%N m = Some s -> s_status s = SentRequestByReference -> exists m',
  all_kept m (mk_csys m' DFetched [] true false (in_time_log s)).
Proof.
  intros G St. pose proof (overlap m s G St) as X. unfold marking in X.
  eapply k_second in X; [|apply (c_update _ _ _ _ _ _ _ false); unfold update_status; rewrite G; reflexivity]. unfold recording in X.
  eapply k_first in X; [|apply (c_update _ _ _ _ _ _ _ false); unfold update_status; rewrite st_get_insert, N.eqb_refl; reflexivity].
  unfold after_mark in X. cbn [rmap] in X.
  eapply k_second in X; [|apply c_set]. eapply k_second in X; [|apply c_read]. eapply k_second in X; [|apply c_show].
  apply k_answer in X. apply k_answer in X. eexists. exact X.
Qed.
Lemma run_too_late m s : st_get 7%N m = Some s -> s_status s = SentRequestByReference -> exists m' t,
  all_kept m (mk_csys m' DFetched [] true false (too_late_log s)) /\ st_get 7%N m' = Some t /\ s_status t = SentRequest.
Proof.
  intros G St. pose proof (overlap m s G St) as X. unfold recording in X.
  eapply k_first in X; [|apply (c_update _ _ _ _ _ _ _ false); unfold update_status; rewrite G; reflexivity]. unfold marking in X.
  eapply k_second in X; [|apply (c_update _ _ _ _ _ _ _ false); unfold update_status; rewrite st_get_insert, N.eqb_refl; reflexivity].
  unfold after_mark in X. cbn [rmap] in X.
  eapply k_second in X; [|apply c_set]. eapply k_second in X; [|apply c_read]. eapply k_second in X; [|apply c_show].
  apply k_answer in X. apply k_answer in X. eexists _, _. split; [exact X|]. rewrite st_get_insert, N.eqb_refl. split; reflexivity.
Qed.
Lemma in_time_orderly s : none_late (in_time_log s).
Proof.
  intros n h u o E (h' & o' & H). unfold in_time_log, overlap_log in E. cbn [app] in E.
  do 4 (destruct n as [|? n]; [discriminate E|injection E as _ E]). destruct n as [|? n].
  - injection E as _ <- <-. cbn [In] in H. repeat destruct H as [H|H]; try discriminate H; destruct H.
  - injection E as _ E. do 7 (destruct n as [|? n]; [discriminate E|injection E as _ E]). destruct n; discriminate E.
Qed.
Lemma in_time_settled s : s_status s = SentRequestByReference -> settled (in_time_log s) = [toy_post; toy_fetch].
Proof. intros St. unfold in_time_log, overlap_log, settled, toy_fetch, toy_post. cbn [app flat_map settles got_lock]. rewrite St. reflexivity. Qed.
Example c139_sequential_ex : exists dest x,
  cli_setup simple_parse (toy_url "https://v.example/") ["ldp_vc"] 1%N 7%N = (fst cli_toy, Ok dest) /\ csteps (cs_init (fst cli_toy)) x
  /\ none_late (cs_log x) /\ settled (cs_log x) = [toy_post; toy_fetch].
Proof.
  destruct toy_starts as (dest & St). destruct toy_stored as (s & G & Ss). exists dest. generalize dependent (fst cli_toy). intros m St G.
  destruct (run_in_time m s G Ss) as (m' & X). eexists. split; [exact St|]. split; [exact (kept_reachable _ _ X)|]. cbn [cs_log].
  split; [apply in_time_orderly|now apply in_time_settled].
Qed.
Example c139_answers_ex : exists dest y newer older,
  cli_setup simple_parse (toy_url "https://v.example/") ["ldp_vc"] 1%N 7%N = (fst cli_toy, Ok dest) /\ csteps (cs_init (fst cli_toy)) y
  /\ none_late (cs_log y) /\ (forall p, ~ In (toy_post, p) (cs_tasks (cs_init (fst cli_toy))))
  /\ cs_log y = newer ++ EvAnswered toy_post (RJson 200 (JObj [])) :: older ++ cs_log (cs_init (fst cli_toy))
  /\ In (EvDoes toy_fetch (EvUpdate 7%N SentRequest (Ok tt))) older.
Proof.
  destruct toy_starts as (dest & St). destruct toy_stored as (s & G & Ss). exists dest. generalize dependent (fst cli_toy). intros m St G.
  destruct (run_in_time m s G Ss) as (m' & X). eexists. exists [EvAnswered toy_fetch (RJwt (s_jwt s))]. eexists. split; [exact St|]. split; [exact (kept_reachable _ _ X)|]. cbn [cs_log].
  split; [apply in_time_orderly|]. split; [intros p []|]. split; [unfold cs_init; cbn [cs_log]; rewrite app_nil_r; reflexivity|]. cbn [In]. auto.
Qed.
Example c139_arranged_ex : exists dest x,
  cli_setup simple_parse (toy_url "https://v.example/") ["ldp_vc"] 1%N 7%N = (fst cli_toy, Ok dest) /\ all_kept (fst cli_toy) x
  /\ cs_tasks x = [] /\ none_late (cs_log x) /\ map fst (answers (cs_log x)) = [toy_post; toy_fetch] /\ forall h, ~ held_up h (cs_log x).
Proof.
  destruct toy_starts as (dest & St). destruct toy_stored as (s & G & Ss). exists dest. generalize dependent (fst cli_toy). intros m St G.
  destruct (run_in_time m s G Ss) as (m' & X). eexists. split; [exact St|]. split; [exact X|]. cbn [cs_log cs_tasks].
  split; [reflexivity|]. split; [apply in_time_orderly|]. split; [reflexivity|]. intros h (e & H & K). unfold in_time_log, overlap_log in H. cbn [app In] in H.
  repeat destruct H as [H|H]; try discriminate H; first [injection H as _ <-; discriminate K|destruct H].
Qed.
Lemma undecided_before m x : csteps (cs_init m) x -> (forall u, ~ decided u (cs_log x)) -> fetched_before m x.
Proof.
  remember (cs_init m) as i eqn:Ei. intros H. induction H as [i|i b c H IH S]; subst i; intros N; [constructor|].
  eapply before_step; [apply IH; [reflexivity|]|exact S|].
  - intros u (h & o & X). apply (N u). exists h, o. destruct S; cbn [cs_log] in *; auto; try (now right). apply in_or_app. now right.
  - intros h u o E. destruct (N u). exists h, o. rewrite E. now left.
Qed.
Example c139_in_time_ex : exists dest x,
  cli_setup simple_parse (toy_url "https://v.example/") ["ldp_vc"] 1%N 7%N = (fst cli_toy, Ok dest) /\ fetched_before (fst cli_toy) x
  /\ settled (cs_log x) = [toy_post; toy_fetch].
Proof.
  destruct toy_starts as (dest & St). destruct toy_stored as (s & G & Ss). exists dest. generalize dependent (fst cli_toy). intros m St G.
  pose proof (overlap m s G Ss) as X. unfold marking in X.
  eapply k_second in X; [|apply (c_update _ _ _ _ _ _ _ false); unfold update_status; rewrite G; reflexivity].
  unfold after_mark in X. cbn [rmap] in X.
  eapply k_second in X; [|apply c_set]. eapply k_second in X; [|apply c_read]. eapply k_second in X; [|apply c_show].
  eapply kept_step in X; [|exact (cs_answer _ _ _ [(toy_post, recording)] toy_fetch _ [] _ _)|cbn; lia].
  apply kept_reachable, undecided_before in X.
  2:{ intros u (h & o & H). cbn [cs_log app] in H. unfold overlap_log in H. cbn [In] in H. repeat destruct H as [H|H]; try discriminate H; destruct H. }
  eexists. split; [exact St|]. split.
  - eapply before_step; [exact X| |].
    + refine (cs_act _ _ _ _ _ _ [] toy_post recording _ _ _ _ _ _). apply (c_update _ _ _ _ _ _ _ false). unfold update_status. rewrite st_get_insert, N.eqb_refl. reflexivity.
    + intros h u o E sid p _ [H|[]]. discriminate H.
  - cbn [cs_log app]. unfold overlap_log, settled, toy_fetch, toy_post. cbn [app flat_map settles got_lock]. rewrite Ss. reflexivity.
Qed.

(** C139: the condition is needed: when a fetch that read the session before the response was judged marks it as sent afterwards,
    no order of the two requests, attended to alone one after the other with these answers, leaves this session, although no
    request found the lock held: the recorded verdict is lost. *)
Lemma c139_late_refuted_pf
  : exists (url_parse : string -> option url) (public : url) (types : list string) (fresh id : uuid) (m : store) (dest : url) (x : csys),
    cli_setup url_parse public types fresh id = (m, Ok dest) /\ all_kept m x /\ cs_tasks x = [] /\ (forall h, ~ held_up h (cs_log x))
    /\ forall l, Permutation l (answers (cs_log x)) -> ~ attended m l (cs_store x).
Proof.
  destruct toy_starts as (dest & St). destruct toy_stored as (s & G & Ss). generalize dependent (fst cli_toy). intros m St G.
  destruct (run_too_late m s G Ss) as (m' & t & X & Gt & Tt).
  exists simple_parse, (toy_url "https://v.example/"), ["ldp_vc"], 1%N, 7%N, m, dest. eexists. split; [exact St|]. split; [exact X|]. cbn [cs_tasks cs_log cs_store].
  split; [reflexivity|]. split.
  - intros h (e & H & K). unfold too_late_log, overlap_log in H. cbn [app In] in H.
    repeat destruct H as [H|H]; try discriminate H; first [injection H as _ <-; discriminate K|destruct H].
  - assert (Post : forall m1 s1 m2 r, st_get 7%N m1 = Some s1 -> undisturbed (chandler toy_post) m1 = (m2, r) -> exists s2, st_get 7%N m2 = Some s2 /\ s_status s2 = Complete toy_verdict).
    { intros m1 s1 m2 r G1. rewrite toy_post_handler. unfold verify_code. cbn [ExConsole.within undisturbed]. unfold get_session. rewrite G1. cbn [ok_or ExConsole.within undisturbed].
      unfold update_status. rewrite G1. cbn [undisturbed]. intros E. injection E as <- _. eexists. rewrite st_get_insert, N.eqb_refl. split; reflexivity. }
    assert (Fetch : forall m1 s1 m2 r, st_get 7%N m1 = Some s1 -> undisturbed (chandler toy_fetch) m1 = (m2, r) -> exists s2, st_get 7%N m2 = Some s2
        /\ (s_status s1 = Complete toy_verdict -> s_status s2 = Complete toy_verdict)).
    { intros m1 s1 m2 r G1. rewrite toy_fetch_handler. unfold retrieve_code. cbn [ExConsole.within undisturbed]. unfold get_session. rewrite G1. cbn [ok_or].
      destruct (status_lt (s_status s1) SentRequest) eqn:Lt; cbn [ExConsole.within undisturbed].
      - unfold update_status. rewrite G1. cbn [rmap undisturbed]. intros E. injection E as <- _. eexists. rewrite st_get_insert, N.eqb_refl. split; [reflexivity|].
        intros Sc. rewrite Sc in Lt. discriminate Lt.
      - intros E. injection E as <- _. eauto. }
    intros l P A. change (answers (too_late_log s)) with [(toy_post, RJson 200 (JObj [])); (toy_fetch, RJwt (s_jwt s))] in P.
    apply Permutation_sym, Permutation_length_2_inv in P as [->| ->].
    + inversion A as [|? m1 ? ? ? A1 E1]; subst. inversion A1 as [|? m2 ? ? ? A2 E2]; subst. inversion A2; subst.
      destruct (Fetch _ _ _ _ G E2) as (s2 & G2 & _). destruct (Post _ _ _ _ G2 E1) as (s3 & G3 & S3). congruence.
    + inversion A as [|? m1 ? ? ? A1 E1]; subst. inversion A1 as [|? m2 ? ? ? A2 E2]; subst. inversion A2; subst.
      destruct (Post _ _ _ _ G E2) as (s2 & G2 & S2). destruct (Fetch _ _ _ _ G2 E1) as (s3 & G3 & S3). specialize (S3 S2). congruence.
Qed.
