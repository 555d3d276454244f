From Coq Require Import Lia ZArith.
From Verif Require Import Base BaseFacts Utf8 Json JsonFacts JsonText Serde Url UrlEncoded Object Formats Params Metadata Dcql
  Effects Jwt Request Response Jwe Session X509 Client Builder Server ExMatcher ExWallet ExVerifier ExLog.
From Verif Require Import Spec SpecObject SpecRequest SpecBuilder SpecSession SpecServer StoreFacts PfBuilder PfSession PfServer SpecVerifierEx PfExServer SpecLog.

Section S.
Variable up : string -> option url.
Variable op : string -> res string.
Variable a : adapter.

(* ------------------------------------------------------ logging changes nothing *)
Lemma l_forget x y : lstep up op a x y -> hstep up op a (ls_sys x) (ls_sys y).
Proof. intros S. inversion S; subst; cbn [ls_sys]; econstructor; eauto. Qed.
Lemma l_forgets x y : lsteps up op a x y -> hsteps up op a (ls_sys x) (ls_sys y).
Proof. induction 1 as [|x y z H IH S]; [constructor|]. eapply hsteps_snoc; [exact IH|apply l_forget, S]. Qed.
Lemma l_carry x y w : hstep up op a x y -> exists w', lstep up op a (mk_lsys x w) (mk_lsys y (w ++ w')).
Proof.
  intros S. inversion S; subst.
  - exists (start_lines h). constructor.
  - exists (event_lines op e). now constructor.
  - exists (reply_lines h r). constructor.
  - exists []. rewrite app_nil_r. constructor.
Qed.
Lemma l_carries x y w : hsteps up op a x y -> exists w', lsteps up op a (mk_lsys x w) (mk_lsys y (w ++ w')).
Proof.
  induction 1 as [x|x y z H (w1 & IH) S].
  - exists []. rewrite app_nil_r. constructor.
  - destruct (l_carry _ _ (w ++ w1) S) as (w2 & T). exists (w1 ++ w2). rewrite app_assoc. eapply lsteps_snoc; eauto.
Qed.

(* ------------------------------------------------------ every request leaves its first lines *)
Lemma first_lines x : lreachable up op a x -> forall h, came h (ls_sys x) -> incl (start_lines h) (ls_lines x).
Proof.
  unfold lreachable. remember (mk_lsys hs_init []) as i eqn:Ei. intros H. induction H as [i|i x z H IH S]; subst i.
  - intros h [[]|[]].
  - specialize (IH eq_refl). inversion S; subst; unfold came in *; cbn [ls_sys ls_lines hs_tasks hs_log] in *; intros h0 C.
    + destruct C as [[<-|C]|C]; [apply incl_appr, incl_refl|apply incl_appl, IH; auto|apply incl_appl, IH; auto].
    + rewrite map_app in *. cbn [map fst] in *. apply incl_appl, IH. destruct C as [C|[<-|C]]; [now left| |now right].
      left. apply in_app_iff. right. now left.
    + rewrite map_app in *. cbn [map fst] in *. apply incl_appl, IH. destruct C as [C|[<-|C]].
      * left. apply in_app_iff in C as [C|C]; apply in_app_iff; [now left|right; now right].
      * left. apply in_app_iff. right. now left.
      * now right.
    + rewrite map_app in *. cbn [map fst] in *. apply IH. destruct C as [C|C]; [|now right].
      left. apply in_app_iff in C as [C|C]; apply in_app_iff; [now left|right; now right].
Qed.
(** and every run of the validator its own. *)
Lemma validator_seen x : lreachable up op a x -> forall h s r o, In (h, HDoes (EvValidate s r o)) (hs_log (ls_sys x)) ->
  incl (validator_lines op s r) (ls_lines x).
Proof.
  unfold lreachable. remember (mk_lsys hs_init []) as i eqn:Ei. intros H. induction H as [i|i x z H IH S]; subst i.
  - intros h s r o [].
  - specialize (IH eq_refl). inversion S; subst; cbn [ls_sys ls_lines hs_log] in *; intros h0 s0 r0 o0 C.
    + apply incl_appl. eapply IH, C.
    + destruct C as [C|C]; [injection C as -> ->; apply incl_appr, incl_refl|apply incl_appl; eapply IH, C].
    + destruct C as [C|C]; [discriminate C|apply incl_appl; eapply IH, C].
    + eapply IH, C.
Qed.
(** The lines of answers. *)
Lemma created_answered x : lreachable up op a x -> forall u,
  In (says_created u) (ls_lines x) <-> exists n f c m, In (HInitiate n f u, HReply (RJson c (JObj m))) (hs_log (ls_sys x)).
Proof.
  assert (St : forall u h, ~ In (says_created u) (start_lines h)).
  { intros u h I. unfold says_created in I. destruct h as [n f id|sid|sid b|sid]; cbn [start_lines] in I.
    - destruct I as [I|[]]; discriminate I.
    - destruct (uuid_of_string sid); [destruct I as [I|[]]; discriminate I|destruct I].
    - destruct (utf8_valid b); [|destruct I]. destruct (uuid_of_string sid); [|destruct I].
      destruct (from_form b); cbn in I; destruct I as [I|[I|[I|[]]]]; discriminate I.
    - destruct I. }
  assert (Ev : forall u e, ~ In (says_created u) (event_lines op e)).
  { intros u e I. unfold says_created in I. destruct e as [| | | |s r o|]; cbn [event_lines] in I; try (destruct I; fail).
    unfold validator_lines in I. destruct I as [I|I]; [discriminate I|]. destruct r as [v|j].
    - destruct I as [I|I]; [discriminate I|]. apply in_map_iff in I as (e & I & _). discriminate I.
    - destruct I as [I|[I|I]]; try discriminate I. destruct (decrypt op j) as [v|e]; [|destruct I as [I|[]]; discriminate I].
      destruct I as [I|[I|I]]; try discriminate I. destruct v as [| | | | | |m]; try (destruct I; fail).
      destruct (obj_get "vp_token" m); [destruct I as [I|[]]; discriminate I|destruct I]. }
  unfold lreachable. remember (mk_lsys hs_init []) as i eqn:Ei. intros H. induction H as [i|i x z H IH S]; subst i.
  - intros u. split; [intros []|intros (? & ? & ? & ? & [])].
  - specialize (IH eq_refl). inversion S; subst; cbn [ls_sys ls_lines hs_log] in *; intros u.
    + rewrite in_app_iff, IH. split; [intros [X|X]; [exact X|destruct (St _ _ X)]|auto].
    + rewrite in_app_iff, IH. split.
      * intros [(n & f & c & b & X)|X]; [|destruct (Ev _ _ X)]. exists n, f, c, b. now right.
      * intros (n & f & c & b & [X|X]); [discriminate X|]. left. eauto.
    + rewrite in_app_iff, IH. split.
      * intros [(n & f & c & b & X)|X]; [exists n, f, c, b; now right|]. unfold says_created in X.
        destruct h as [n f id|sid|sid b|sid]; cbn [reply_lines] in X.
        -- destruct r as [c v|j|c]; [destruct v as [| | | | | |b]|..]; try (destruct X as [X|[]]; discriminate X).
           destruct X as [X|[X|[]]]; [|destruct (obj_get _ _) as [[]|] in X; discriminate X]. injection X as ->. exists n, f, c, b. now left.
        -- destruct r as [c v|j|c]; [destruct X|destruct X as [X|[]]; discriminate X|].
           destruct (c =? 404)%N; [destruct X as [X|[]]; discriminate X|destruct X].
        -- destruct r as [c v|j|c]; [destruct X as [X|[]]; discriminate X|destruct X|].
           destruct (c =? 500)%N; [destruct X as [X|[]]; discriminate X|destruct X].
        -- destruct X.
      * intros (n & f & c & b & [X|X]).
        -- injection X as -> ->. right. now left.
        -- left. eauto.
    + apply IH.
Qed.

(* ------------------------------------------------------ audit *)
Fixpoint fine (w : list line) (p : prog reply) : Prop :=
  match p with
  | Done _ => True
  | Initiate s k => initial_status (s_status s) /\ forall x, fine w (k x)
  | Update u st k => (forall o, st = Complete o -> In (says_received u) w /\ In (says_validating u) w) /\ forall x, fine w (k x)
  | Get u k => forall x, (forall s, x = Ok s -> s_uuid s = u) -> fine w (k x)
  | Remove u k => False
  | Validate s r k => forall o w', incl w w' -> In (says_validating (s_uuid s)) w' -> fine w' (k o)
  end.
Lemma fine_mono p : forall w w', incl w w' -> fine w p -> fine w' p.
Proof.
  induction p as [x|s k IH|u st k IH|u k IH|u k IH|s x k IH]; intros w w' I; cbn [fine].
  - auto.
  - intros [A B]. split; [exact A|]. intros x. eapply IH; eauto.
  - intros [A B]. split; [|intros x; eapply IH; eauto]. intros o E. destruct (A o E) as [R V]. split; apply I; assumption.
  - intros A x E. eapply IH; eauto.
  - auto.
  - intros A o w2 I2 V. apply A; [|exact V]. intros y Y. apply I2, I, Y.
Qed.
Lemma handler_fine h w : incl (start_lines h) w -> fine w (handler up a h).
Proof.
  intros I. destruct h as [n f id|sid|sid b|sid]; cbn [handler].
  - unfold initiate_request, build_code. destruct (rb_prepare up _ _ _) as [[s d]|e] eqn:E; cbn; [|exact Logic.I].
    apply prepare_initial in E as (_ & E). auto.
  - unfold get_request_object. destruct (uuid_of_string sid) as [u|]; [|exact Logic.I]. cbn. intros [s|e] _; [|exact Logic.I].
    destruct (status_lt (s_status s) SentRequest); cbn; [|exact Logic.I]. split; [discriminate|auto].
  - unfold receive_response. cbn [start_lines] in I. destruct (utf8_valid b); [|exact Logic.I]. destruct (uuid_of_string sid) as [u|]; [|exact Logic.I].
    destruct (from_form b) as [r|]; [|exact Logic.I]. cbn. intros [s|e] E; [|exact Logic.I]. cbn. intros o w' I' V.
    rewrite (E s eq_refl) in V. split; [|auto]. intros _ _. split; [|exact V]. apply I', I. now left.
  - unfold get_status. destruct (uuid_of_string sid) as [u|]; [|exact Logic.I]. cbn. auto.
Qed.
Lemma audited x : lreachable up op a x ->
  (forall h p, In (h, p) (hs_tasks (ls_sys x)) -> fine (ls_lines x) p)
  /\ (forall u s, st_get u (hs_store (ls_sys x)) = Some s ->
        s_uuid s = u /\ forall o, s_status s = Complete o -> In (says_received u) (ls_lines x) /\ In (says_validating u) (ls_lines x)).
Proof.
  unfold lreachable. remember (mk_lsys hs_init []) as i eqn:Ei. intros H. induction H as [i|i x z H IH S]; subst i.
  - split; [intros ? ? []|intros ? ? X; discriminate X].
  - specialize (IH eq_refl). destruct IH as [Ft Fs]. inversion S; subst; cbn [ls_sys ls_lines hs_tasks hs_store] in *.
    + split.
      * intros h0 p [X|X]; [injection X as <- <-; apply handler_fine, incl_appr, incl_refl|].
        eapply fine_mono; [apply incl_appl, incl_refl|eapply Ft, X].
      * intros u s G. destruct (Fs u s G) as [U C]. split; [exact U|]. intros o E. destruct (C o E). split; apply in_app_iff; auto.
    + assert (P : fine w p) by (eapply Ft; apply in_app_iff; right; now left). split.
      * intros h0 p0 X. apply in_app_iff in X as [X|[X|X]].
        -- eapply fine_mono; [apply incl_appl, incl_refl|]. eapply Ft. apply in_app_iff. left. exact X.
        -- injection X as <- <-. inversion H0; subst; cbn [fine] in P.
           ++ eapply fine_mono; [apply incl_appl, incl_refl|]. apply P.
           ++ eapply fine_mono; [apply incl_appl, incl_refl|]. apply P.
           ++ eapply fine_mono; [apply incl_appl, incl_refl|]. apply P. intros s E. unfold get_session in E. destruct contended; [discriminate|].
              destruct (st_get u m') as [s'|] eqn:G; [|discriminate]. injection E as ->. apply (Fs _ _ G).
           ++ destruct P.
           ++ apply P; [apply incl_appl, incl_refl|]. apply in_app_iff. right. now left.
        -- eapply fine_mono; [apply incl_appl, incl_refl|]. eapply Ft. apply in_app_iff. right. right. exact X.
      * intros u s G. assert (K : forall t, st_get u m = Some t -> s_uuid t = u /\ forall o, s_status t = Complete o -> In (says_received u) (w ++ event_lines op e) /\ In (says_validating u) (w ++ event_lines op e)).
        { intros t Gt. destruct (Fs u t Gt) as [U C]. split; [exact U|]. intros o E. destruct (C o E). split; apply in_app_iff; auto. }
        inversion H0; subst; cbn [fine] in P.
        -- rewrite (initiate_get _ _ _ _ _ u H2) in G. destruct x as [[]|]; [|now apply K]. destruct (N.eqb_spec u (s_uuid s0)) as [->|]; [|now apply K].
           injection G as <-. split; [reflexivity|]. intros o E. destruct P as [[P|P] _]; rewrite P in E; discriminate E.
        -- destruct (update_get _ _ _ _ _ _ u H2) as [U _]. rewrite U in G.
           destruct x as [[]|]; [|now apply K]. destruct (N.eqb_spec u u0) as [->|]; [|now apply K].
           destruct (st_get u0 m) as [t|] eqn:Gt; [|discriminate G]. injection G as <-. split; [apply (K t eq_refl)|].
           cbn. intros o ->. destruct P as [P _]. destruct (P o eq_refl). split; apply in_app_iff; auto.
        -- now apply K.
        -- destruct P.
        -- now apply K.
    + split.
      * intros h0 p X. eapply fine_mono; [apply incl_appl, incl_refl|]. eapply Ft. apply in_app_iff. apply in_app_iff in X as [X|X]; [left; exact X|right; right; exact X].
      * intros u s G. destruct (Fs u s G) as [U C]. split; [exact U|]. intros o E. destruct (C o E). split; apply in_app_iff; auto.
    + split; [|exact Fs]. intros h0 p0 X. eapply Ft. apply in_app_iff. apply in_app_iff in X as [X|X]; [left; exact X|right; right; exact X].
Qed.

(* ------------------------------------------------------ what the presentations leave *)
(** Programs that differ only in the presentations they hand to the validator. *)
Inductive twins : prog reply -> prog reply -> Prop :=
| tw_done x : twins (Done x) (Done x)
| tw_initiate s k k' : (forall x, twins (k x) (k' x)) -> twins (Initiate s k) (Initiate s k')
| tw_update u st k k' : (forall x, twins (k x) (k' x)) -> twins (Update u st k) (Update u st k')
| tw_get u k k' : (forall x, twins (k x) (k' x)) -> twins (Get u k) (Get u k')
| tw_remove u k k' : (forall x, twins (k x) (k' x)) -> twins (Remove u k) (Remove u k')
| tw_validate s r r' k k' : same_outline r r' -> (forall x, twins (k x) (k' x)) -> twins (Validate s r k) (Validate s r' k').
Lemma twins_refl p : twins p p.
Proof.
  induction p as [x|s k IH|u st k IH|u k IH|u k IH|s x k IH]; constructor; auto. destruct x; cbn; reflexivity.
Qed.
Lemma outline_lines s r r' : same_outline r r' -> ordinary_log (validator_lines op s r) = ordinary_log (validator_lines op s r').
Proof.
  destruct r as [u|j], r' as [v|k]; cbn [same_outline]; try contradiction; [|now intros ->].
  intros E.
  assert (L : vp_len (ur_vp_token u) = vp_len (ur_vp_token v)).
  { unfold vp_len. apply (f_equal (@length _)) in E. now rewrite !map_length in E. }
  assert (Q : map (fun e : string * list vp_item => mk_line LvInfo "Query '{}': {} presentation(s)" [AText (fst e); ACount (length (snd e))]) (ur_vp_token u)
            = map (fun e => mk_line LvInfo "Query '{}': {} presentation(s)" [AText (fst e); ACount (length (snd e))]) (ur_vp_token v)).
  { transitivity (map (fun x : string * nat => mk_line LvInfo "Query '{}': {} presentation(s)" [AText (fst x); ACount (snd x)])
                  (map (fun e : string * list vp_item => (fst e, length (snd e))) (ur_vp_token u))); [now rewrite map_map|].
    rewrite E. now rewrite map_map. }
  unfold validator_lines. now rewrite L, Q.
Qed.
Lemma outline_outcome s r r' : same_outline r r' -> app_validator op s r = app_validator op s r'.
Proof.
  destruct r as [u|j], r' as [v|k]; cbn [same_outline]; try contradiction; [|now intros ->].
  intros E. cbn [app_validator].
  assert (L : vp_len (ur_vp_token u) = vp_len (ur_vp_token v)).
  { unfold vp_len. apply (f_equal (@length _)) in E. now rewrite !map_length in E. }
  now rewrite L.
Qed.

Section F.
Variable f : string -> string.
Hypothesis Hf : forall b, same_outline_body b (f b).
Lemma start_twin h : ordinary_log (start_lines (with_body f h)) = ordinary_log (start_lines h).
Proof.
  destruct h as [n fr id|sid|sid b|sid]; try reflexivity. cbn [with_body start_lines]. destruct (Hf b) as [U R]. rewrite <- U.
  destruct (utf8_valid b); [|reflexivity]. destruct (uuid_of_string sid); [|reflexivity].
  destruct (from_form b), (from_form (f b)); try contradiction; reflexivity.
Qed.
Lemma handler_twin h : twins (handler up a h) (handler up a (with_body f h)).
Proof.
  destruct h as [n fr id|sid|sid b|sid]; try apply twins_refl. cbn [with_body handler]. unfold receive_response. destruct (Hf b) as [U R]. rewrite <- U.
  destruct (utf8_valid b); [|apply twins_refl]. destruct (uuid_of_string sid); [|apply twins_refl].
  destruct (from_form b) as [r|], (from_form (f b)) as [r'|]; try contradiction; [|apply twins_refl].
  unfold verify_code. cbn [pfinish]. constructor. intros [s|e]; [|apply twins_refl]. cbn [pfinish]. constructor; [exact R|]. intros o. apply twins_refl.
Qed.
Lemma reply_twin h r : reply_lines (with_body f h) r = reply_lines h r.
Proof. destruct h; reflexivity. Qed.
Lemma act_twin m p m' p1 e q : act m p m' p1 e -> (forall s r o, e = EvValidate s r o -> o = app_validator op s r) -> twins p q ->
  exists q1 e', act m q m' q1 e' /\ (forall s r o, e' = EvValidate s r o -> o = app_validator op s r) /\ twins p1 q1
    /\ ordinary_log (event_lines op e') = ordinary_log (event_lines op e).
Proof.
  intros A V T. inversion A; subst; inversion T; subst.
  - eexists. eexists. split; [econstructor; eassumption|]. split; [discriminate|]. split; [auto|reflexivity].
  - eexists. eexists. split; [econstructor; eassumption|]. split; [discriminate|]. split; [auto|reflexivity].
  - eexists. eexists. split; [apply act_get|]. split; [discriminate|]. split; [auto|reflexivity].
  - eexists. eexists. split; [econstructor; eassumption|]. split; [discriminate|]. split; [auto|reflexivity].
  - eexists. exists (EvValidate s r' o). split; [apply act_validate|]. split; [|split; [auto|]].
    + intros s2 r2 o2 X. injection X as <- <- <-. rewrite <- (outline_outcome s r r') by assumption. now apply V.
    + cbn [event_lines]. symmetry. now apply outline_lines.
Qed.
Definition twin_task (x y : hreq * prog reply) : Prop := fst y = with_body f (fst x) /\ twins (snd x) (snd y).
Lemma twin_split pre x post ts : Forall2 twin_task (pre ++ x :: post) ts ->
  exists pre' x' post', ts = pre' ++ x' :: post' /\ Forall2 twin_task pre pre' /\ twin_task x x' /\ Forall2 twin_task post post'.
Proof.
  intros F. apply Forall2_app_inv_l in F as (pre' & r & F1 & F2 & ->). inversion F2 as [|? x' ? post' T F3]; subst. exists pre', x', post'. auto.
Qed.
Lemma log_app w w' : ordinary_log (w ++ w') = ordinary_log w ++ ordinary_log w'.
Proof. apply filter_app. Qed.
Lemma shadow x : lreachable up op a x -> exists y, lreachable up op a y
  /\ hs_store (ls_sys y) = hs_store (ls_sys x) /\ Forall2 twin_task (hs_tasks (ls_sys x)) (hs_tasks (ls_sys y))
  /\ map fst (hs_log (ls_sys y)) = map (with_body f) (map fst (hs_log (ls_sys x)))
  /\ (forall h r, In (h, HReply r) (hs_log (ls_sys x)) -> In (with_body f h, HReply r) (hs_log (ls_sys y)))
  /\ ordinary_log (ls_lines y) = ordinary_log (ls_lines x).
Proof.
  unfold lreachable. remember (mk_lsys hs_init []) as i eqn:Ei. intros H. induction H as [i|i x z H IH S]; subst i.
  - exists (mk_lsys hs_init []). split; [constructor|]. split; [reflexivity|]. split; [constructor|]. split; [reflexivity|]. split; [intros ? ? []|reflexivity].
  - destruct (IH eq_refl) as (y & R & M & T & L & A & W). clear IH. destruct y as [[m0 ts0 l0] w0]. inversion S; subst; cbn [ls_sys ls_lines hs_tasks hs_store hs_log] in *; subst m0.
    + exists (mk_lsys (mk_hsys m ((with_body f h, handler up a (with_body f h)) :: ts0) l0) (w0 ++ start_lines (with_body f h))).
      split; [eapply lsteps_snoc; [exact R|apply l_start]|]. cbn [ls_sys ls_lines hs_tasks hs_store hs_log]. split; [reflexivity|].
      split; [constructor; [split; [reflexivity|apply handler_twin]|exact T]|]. split; [exact L|]. split; [exact A|].
      now rewrite !log_app, W, start_twin.
    + destruct (twin_split _ _ _ _ T) as (pre' & [h' q] & post' & -> & T1 & [E T2] & T3). cbn [fst snd] in *. subst h'.
      destruct (act_twin _ _ _ _ _ _ H0 H1 T2) as (q1 & e' & Aq & Vq & Tq & Wq).
      exists (mk_lsys (mk_hsys m' (pre' ++ (with_body f h, q1) :: post') ((with_body f h, HDoes e') :: l0)) (w0 ++ event_lines op e')).
      split; [eapply lsteps_snoc; [exact R|apply l_act; assumption]|]. cbn [ls_sys ls_lines hs_tasks hs_store hs_log]. split; [reflexivity|].
      split; [apply Forall2_app; [exact T1|constructor; [split; [reflexivity|exact Tq]|exact T3]]|]. split; [cbn; now rewrite L|].
      split; [intros h0 r [X|X]; [discriminate X|right; now apply A]|]. now rewrite !log_app, W, Wq.
    + destruct (twin_split _ _ _ _ T) as (pre' & [h' q] & post' & -> & T1 & [E T2] & T3). cbn [fst snd] in *. subst h'. inversion T2; subst.
      exists (mk_lsys (mk_hsys m (pre' ++ post') ((with_body f h, HReply r) :: l0)) (w0 ++ reply_lines (with_body f h) r)).
      split; [eapply lsteps_snoc; [exact R|apply l_return]|]. cbn [ls_sys ls_lines hs_tasks hs_store hs_log]. split; [reflexivity|].
      split; [now apply Forall2_app|]. split; [cbn; now rewrite L|].
      split; [intros h0 r0 [X|X]; [injection X as <- <-; now left|right; now apply A]|]. now rewrite !log_app, W, reply_twin.
    + destruct (twin_split _ _ _ _ T) as (pre' & [h' q] & post' & -> & T1 & [E T2] & T3). cbn [fst snd] in *. subst h'.
      exists (mk_lsys (mk_hsys m (pre' ++ post') l0) w0).
      split; [eapply lsteps_snoc; [exact R|apply l_drop]|]. cbn [ls_sys ls_lines hs_tasks hs_store hs_log]. split; [reflexivity|].
      split; [now apply Forall2_app|]. auto.
Qed.
End F.
End S.

(** C137: logging changes nothing: the server that keeps a log reaches exactly the states of the server of C78. *)
Lemma c137_transparent_pf
  : forall (url_parse : string -> option url) (jwe_open : string -> res string) (a : adapter) (x : hsys),
    hreachable url_parse jwe_open a x <-> exists w, lreachable url_parse jwe_open a (mk_lsys x w).
Proof.
  intros up op a x. split.
  - intros R. destruct (l_carries up op a _ _ [] R) as (w & L). exists w. exact L.
  - intros (w & L). apply (l_forgets up op a) in L. exact L.
Qed.

(** C137: at the default level the log tells nothing of the presentations of an unencrypted response but which queries it
    answers and with how many: any history of requests, with any schedule, and the same history with other presentations
    leave the same lines, the same sessions and the same answers. *)
Lemma c137_presentations_pf
  : forall (url_parse : string -> option url) (jwe_open : string -> res string) (a : adapter) (f : string -> string) (x : lsys),
    (forall b, same_outline_body b (f b)) -> lreachable url_parse jwe_open a x ->
    exists y, lreachable url_parse jwe_open a y
      /\ map fst (hs_tasks (ls_sys y)) = map (with_body f) (map fst (hs_tasks (ls_sys x)))
      /\ map fst (hs_log (ls_sys y)) = map (with_body f) (map fst (hs_log (ls_sys x)))
      /\ (forall h r, In (h, HReply r) (hs_log (ls_sys x)) -> In (with_body f h, HReply r) (hs_log (ls_sys y)))
      /\ hs_store (ls_sys y) = hs_store (ls_sys x)
      /\ ordinary_log (ls_lines y) = ordinary_log (ls_lines x).
Proof.
  intros up op a f x Hf R. destruct (shadow up op a f Hf x R) as (y & Ry & M & T & L & A & W). exists y. split; [exact Ry|].
  split; [|split; [exact L|split; [exact A|split; [exact M|exact W]]]].
  clear - T. induction T as [|t t' ts ts' [E _] T IH]; [reflexivity|]. cbn [map]. now rewrite E, IH.
Qed.

(** C137: the token of an encrypted response is written to the log, decrypted, at the default level. *)
Lemma c137_decrypted_refuted_pf
  : forall (url_parse : string -> option url) (jwe_open : string -> res string) (a : adapter) (x : lsys) (h : hreq) (s : session)
      (jwe payload : string) (m : obj) (token : json) (o : outcome),
    lreachable url_parse jwe_open a x -> In (h, HDoes (EvValidate s (Jwt jwe) o)) (hs_log (ls_sys x)) ->
    jwe_open jwe = Ok payload -> json_of_text payload = Some (JObj m) -> obj_get "vp_token" m = Some token ->
    In (says_token token) (ordinary_log (ls_lines x)).
Proof.
  intros up op a x h s jwe payload m token o R I O P G. apply filter_In. split; [|reflexivity].
  apply (validator_seen up op a x R _ _ _ _ I). unfold validator_lines, decrypt. rewrite O. cbn [rbind]. rewrite P. cbn [ok_or]. rewrite G.
  do 5 right. now left.
Qed.

(** C137: whatever level the operator asks for, the whole body of every response is written to the log. *)
Lemma c137_level_refuted_pf
  : forall (url_parse : string -> option url) (jwe_open : string -> res string) (a : adapter) (x : lsys) (asked : level)
      (sid body : string) (u : uuid),
    lreachable url_parse jwe_open a x -> came (HResponse sid body) (ls_sys x) -> uuid_of_string sid = Some u -> utf8_valid body = true ->
    In (says_body body) (filter (written (verifier_level asked)) (ls_lines x)).
Proof.
  intros up op a x asked sid body u R C U V. apply filter_In. split; [|reflexivity].
  apply (first_lines up op a x R _ C). cbn [start_lines]. rewrite V, U. right. now left.
Qed.

(** C137: a level in force shows the lines of that level and of every more important one, and no others. *)
Lemma c137_threshold_pf
  : forall (in_force : level) (x : line),
    written in_force x = true
    <-> exists more less, [LvError; LvWarn; LvInfo; LvDebug; LvTrace] = more ++ in_force :: less /\ In (ln_level x) (more ++ [in_force]).
Proof.
  intros f [l t args]. unfold written. cbn [ln_level]. split.
  - intros H. destruct f.
    + exists [], [LvWarn; LvInfo; LvDebug; LvTrace]. split; [reflexivity|]. destruct l; try discriminate H; cbn [app In]; tauto.
    + exists [LvError], [LvInfo; LvDebug; LvTrace]. split; [reflexivity|]. destruct l; try discriminate H; cbn [app In]; tauto.
    + exists [LvError; LvWarn], [LvDebug; LvTrace]. split; [reflexivity|]. destruct l; try discriminate H; cbn [app In]; tauto.
    + exists [LvError; LvWarn; LvInfo], [LvTrace]. split; [reflexivity|]. destruct l; try discriminate H; cbn [app In]; tauto.
    + exists [LvError; LvWarn; LvInfo; LvDebug], []. split; [reflexivity|]. destruct l; cbn [app In]; tauto.
  - intros (more & less & E & H).
    destruct more as [|a [|b [|c [|d [|e more]]]]]; cbn [app] in E; injection E; clear E.
    + intros _ <-. destruct H as [<-|[]]. reflexivity.
    + intros _ <- <-. destruct H as [<-|[<-|[]]]; reflexivity.
    + intros _ <- <- <-. destruct H as [<-|[<-|[<-|[]]]]; reflexivity.
    + intros _ <- <- <- <-. destruct H as [<-|[<-|[<-|[<-|[]]]]]; reflexivity.
    + intros _ <- <- <- <- <-. destruct H as [<-|[<-|[<-|[<-|[<-|[]]]]]]; reflexivity.
    + intros E. exfalso. destruct more; discriminate E.
Qed.
Example c137_threshold_ex : written LvInfo (mk_line LvInfo "" []) = true /\ written LvInfo (mk_line LvDebug "" []) = false.
Proof. split; reflexivity. Qed.

(** C137: the log is an audit trail: no session has a verdict unless the log, at the default level, says that a response was
    received for it and that it was validated. *)
Lemma c137_audit_pf
  : forall (url_parse : string -> option url) (jwe_open : string -> res string) (a : adapter) (x : lsys) (u : uuid) (s : session)
      (o : outcome),
    lreachable url_parse jwe_open a x -> st_get u (hs_store (ls_sys x)) = Some s -> s_status s = Complete o ->
    In (says_received u) (ordinary_log (ls_lines x)) /\ In (says_validating u) (ordinary_log (ls_lines x)).
Proof.
  intros up op a x u s o R G C. destruct (proj2 (audited up op a x R) u s G) as [_ H]. destruct (H o C) as [A B].
  split; apply filter_In; auto.
Qed.

(** C137: the log says that a session was created exactly when the caller was told so. *)
Lemma c137_created_pf
  : forall (url_parse : string -> option url) (jwe_open : string -> res string) (a : adapter) (x : lsys) (u : uuid),
    lreachable url_parse jwe_open a x ->
    In (says_created u) (ordinary_log (ls_lines x))
    <-> exists nonce fresh code m, In (HInitiate nonce fresh u, HReply (RJson code (JObj m))) (hs_log (ls_sys x)).
Proof.
  intros up op a x u R. rewrite <- (created_answered up op a x R u). unfold ordinary_log. rewrite filter_In. split; [intros [A _]; exact A|auto].
Qed.

(** C137: a session can be in the store although no line of the log, at any level, names it: its request was dropped after
    the session was stored. *)
Lemma c137_unnamed_refuted_pf
  : forall (url_parse : string -> option url) (jwe_open : string -> res string) (a : adapter) (nonce : option string)
      (fresh id : uuid) (s : session) (dest : url),
    rb_prepare url_parse (initiate_builder a nonce fresh) id (ap_wallet a) = Ok (s, dest) ->
    exists x, lreachable url_parse jwe_open a x /\ st_get id (hs_store (ls_sys x)) = Some s
      /\ forall l, In l (ls_lines x) -> forall u, ~ mentions u l.
Proof.
  intros up op a n fr id s dest P. pose proof (prepare_initial _ _ _ _ _ _ P) as (U & _).
  exists (mk_lsys (mk_hsys (st_insert (s_uuid s) s []) [] [(HInitiate n fr id, HDoes (EvInitiate s (Ok tt)))])
     ((([] : list line) ++ start_lines (HInitiate n fr id)) ++ event_lines op (EvInitiate s (Ok tt)))). split; [|split].
  - eapply lsteps_snoc; [eapply lsteps_snoc; [eapply lsteps_snoc; [apply lsteps_refl|apply l_start]|]|].
    + assert (E : handler up a (HInitiate n fr id) = Initiate s (fun x => Done (Ok (initiate_reply a id (rmap (fun _ => dest) x))))).
      { cbn [handler]. unfold initiate_request, build_code. rewrite P. reflexivity. }
      rewrite E. eapply (l_act up op a [] (st_insert (s_uuid s) s []) [] _ _ _ []); [apply (act_initiate _ _ _ false); reflexivity|discriminate].
    + apply (l_drop up op a _ []).
  - cbn. rewrite U. now rewrite N.eqb_refl.
  - cbn. intros l [<-|[]] u [].
Qed.

(* ------------------------------------------------------ concrete cases *)
Definition log_body (c : string) : string := "vp_token=%7B%22q%22%3A%5B%22" +:+ c +:+ "%22%5D%7D".
Definition log_open (s : string) : res string := Ok "{""vp_token"":{""q"":[""secret""]}}".
Lemma log_served (enc : bool) hs : forallb (fun x => match snd x with Ok _ => true | Err _ => false end)
    (snd (serve simple_parse log_open (toy_adapter enc) hs [])) = true ->
  exists l w, lreachable simple_parse log_open (toy_adapter enc) (mk_lsys (mk_hsys (fst (serve simple_parse log_open (toy_adapter enc) hs [])) [] l) w)
    /\ forall h r, In (h, Ok r) (snd (serve simple_parse log_open (toy_adapter enc) hs [])) -> In (h, HReply r) l.
Proof.
  intros H. destruct (serve simple_parse log_open (toy_adapter enc) hs []) as [m rs] eqn:E.
  destruct (served simple_parse log_open (toy_adapter enc) hs [] [] m rs) as (l & R & A & _); [constructor|exact E| |].
  - intros h e X. rewrite forallb_forall in H. specialize (H _ X). discriminate H.
  - destruct (l_carries _ _ _ _ _ [] R) as (w & L). exists l, w. split; [exact L|exact A].
Qed.
Lemma log_validated up op a m l w sid body u r s : lreachable up op a (mk_lsys (mk_hsys m [] l) w) ->
  utf8_valid body = true -> uuid_of_string sid = Some u -> from_form body = Ok r -> st_get u m = Some s ->
  exists l' ts w', lreachable up op a (mk_lsys (mk_hsys m ts ((HResponse sid body, HDoes (EvValidate s r (app_validator op s r))) :: l')) w').
Proof.
  intros R V U F G.
  assert (E : handler up a (HResponse sid body) = pfinish response_reply (verify_code u r)).
  { cbn [handler]. unfold receive_response. now rewrite V, U, F. }
  pose proof (lsteps_snoc _ _ _ _ _ _ R (l_start up op a m [] l w (HResponse sid body))) as S1. rewrite E in S1.
  unfold verify_code in S1. cbn [pfinish] in S1.
  match type of S1 with lsteps _ _ _ _ (mk_lsys (mk_hsys _ [(_, Get _ ?k)] _) _) =>
    pose proof (lsteps_snoc _ _ _ _ _ _ S1 (l_act up op a m m [] _ _ _ [] l _ _ (act_get m u k false) (fun s r o (X : EvGet _ _ = EvValidate s r o) => ltac:(discriminate X)))) as S2 end.
  cbn [app] in S2. unfold get_session in S2. rewrite G in S2. cbn [ok_or pfinish] in S2.
  assert (T : forall k l2 w2, lstep up op a (mk_lsys (mk_hsys m ([] ++ (HResponse sid body, Validate s r k) :: []) l2) w2)
       (mk_lsys (mk_hsys m ([] ++ (HResponse sid body, k (app_validator op s r)) :: []) ((HResponse sid body, HDoes (EvValidate s r (app_validator op s r))) :: l2))
          (w2 ++ event_lines op (EvValidate s r (app_validator op s r))))).
  { intros k l2 w2. apply l_act; [exact (act_validate m s r k (app_validator op s r))|]. intros s2 r2 o2 X. now injection X as <- <- <-. }
  pose proof (lsteps_snoc _ _ _ _ _ _ S2 (T _ _ _)) as S3. eexists. eexists. eexists. exact S3.
Qed.
Definition log_history (c : string) : list hreq := [HInitiate (Some "nonce") 1%N 7%N; HResponse toy_sid (log_body c)].
Lemma log_ran c : c = "secret" -> forallb (fun x => match snd x with Ok _ => true | Err _ => false end)
    (snd (serve simple_parse log_open (toy_adapter false) (log_history c) [])) = true.
Proof. intros ->. vm_compute. reflexivity. Qed.

Example c137_transparent_ex :
  exists w x, lreachable simple_parse log_open (toy_adapter false) (mk_lsys x w) /\ st_get 7%N (hs_store x) <> None.
Proof.
  destruct (log_served false _ (log_ran _ eq_refl)) as (l & w & R & _). exists w. eexists. split; [exact R|]. cbn [hs_store].
  assert (X : match st_get 7%N (fst (serve simple_parse log_open (toy_adapter false) (log_history "secret") [])) with Some _ => true | None => false end = true)
    by (vm_compute; reflexivity).
  intros E. rewrite E in X. discriminate X.
Qed.
Example c137_presentations_ex :
  exists f x, (forall b, same_outline_body b (f b)) /\ lreachable simple_parse log_open (toy_adapter false) x
    /\ came (HResponse toy_sid (log_body "secret")) (ls_sys x) /\ f (log_body "secret") = log_body "other".
Proof.
  exists (fun b => if String.eqb b (log_body "secret") then log_body "other" else b).
  destruct (log_served false _ (log_ran _ eq_refl)) as (l & w & R & A). eexists. split; [|split; [exact R|split]].
  - intros b. destruct (String.eqb_spec b (log_body "secret")) as [->|_].
    + vm_compute. auto.
    + split; [reflexivity|]. destruct (from_form b) as [[u|j]|e]; cbn; auto.
  - right. cbn [ls_sys hs_log].
    assert (X : nth_error (snd (serve simple_parse log_open (toy_adapter false) (log_history "secret") [])) 1
      = Some (HResponse toy_sid (log_body "secret"), Ok (RJson 200 (JObj [])))) by (vm_compute; reflexivity).
    apply nth_error_In in X. apply A in X. apply (in_map fst) in X. exact X.
  - now rewrite String.eqb_refl.
Qed.
Example c137_decrypted_refuted_ex :
  exists x h s o m, lreachable simple_parse log_open (toy_adapter true) x /\ In (h, HDoes (EvValidate s (Jwt "a.b.c") o)) (hs_log (ls_sys x))
    /\ json_of_text "{""vp_token"":{""q"":[""secret""]}}" = Some (JObj m) /\ obj_get "vp_token" m = Some (JObj [("q", JArr [JStr "secret"])]).
Proof.
  destruct (log_served true [HInitiate (Some "nonce") 1%N 7%N]) as (l & w & R & _); [vm_compute; reflexivity|].
  assert (X : match st_get 7%N (fst (serve simple_parse log_open (toy_adapter true) [HInitiate (Some "nonce") 1%N 7%N] [])) with Some _ => true | None => false end = true)
    by (vm_compute; reflexivity).
  destruct (st_get 7%N (fst (serve simple_parse log_open (toy_adapter true) [HInitiate (Some "nonce") 1%N 7%N] []))) as [s|] eqn:G; [clear X|discriminate X].
  destruct (log_validated _ _ _ _ _ _ toy_sid "response=a.b.c" 7%N (Jwt "a.b.c") s R eq_refl eq_refl eq_refl G) as (l' & ts & w' & R').
  eexists. eexists. exists s. eexists. eexists. split; [exact R'|]. split; [now left|]. split; [vm_compute; reflexivity|reflexivity].
Qed.
Example c137_level_refuted_ex :
  exists x, lreachable simple_parse log_open (toy_adapter false) x /\ came (HResponse toy_sid (log_body "secret")) (ls_sys x)
    /\ uuid_of_string toy_sid = Some 7%N /\ utf8_valid (log_body "secret") = true.
Proof.
  destruct c137_presentations_ex as (f & x & _ & R & C & _). exists x. split; [exact R|]. split; [exact C|]. vm_compute. auto.
Qed.
Example c137_audit_ex :
  exists x s o, lreachable simple_parse log_open (toy_adapter false) x /\ st_get 7%N (hs_store (ls_sys x)) = Some s /\ s_status s = Complete o.
Proof.
  destruct (log_served false _ (log_ran _ eq_refl)) as (l & w & R & _).
  assert (X : match st_get 7%N (fst (serve simple_parse log_open (toy_adapter false) (log_history "secret") [])) with
              | Some s => match s_status s with Complete _ => true | _ => false end | None => false end = true) by (vm_compute; reflexivity).
  destruct (st_get 7%N (fst (serve simple_parse log_open (toy_adapter false) (log_history "secret") []))) as [s|] eqn:G; [|discriminate X].
  destruct (s_status s) as [| | |o] eqn:O; try discriminate X. eexists. exists s, o. split; [exact R|]. split; [exact G|exact O].
Qed.
Example c137_created_ex :
  exists x code m, lreachable simple_parse log_open (toy_adapter false) x
    /\ In (HInitiate (Some "nonce") 1%N 7%N, HReply (RJson code (JObj m))) (hs_log (ls_sys x)).
Proof.
  destruct (log_served false _ (log_ran _ eq_refl)) as (l & w & R & A).
  assert (X : match nth_error (snd (serve simple_parse log_open (toy_adapter false) (log_history "secret") [])) 0 with
              | Some (HInitiate (Some n) 1%N 7%N, Ok (RJson _ (JObj _))) => String.eqb n "nonce" | _ => false end = true) by (vm_compute; reflexivity).
  destruct (nth_error (snd (serve simple_parse log_open (toy_adapter false) (log_history "secret") [])) 0) as [[h r]|] eqn:N; [|discriminate X].
  apply nth_error_In in N. destruct h as [[n|] f id| | |]; try discriminate X. destruct f as [|[]]; try discriminate X. destruct id as [|[[[]| |]|[]|]]; try discriminate X.
  destruct r as [[c v| |]|]; try discriminate X. destruct v as [| | | | | |m]; try discriminate X. apply String.eqb_eq in X. subst n.
  apply A in N. eexists. exists c, m. split; [exact R|exact N].
Qed.
Example c137_unnamed_refuted_ex : is_ok (rb_prepare simple_parse (initiate_builder (toy_adapter false) (Some "n") 1%N) 7%N (ap_wallet (toy_adapter false))) = true.
Proof. vm_compute. reflexivity. Qed.
