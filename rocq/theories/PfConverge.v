From Coq Require Import Lia Sorted Permutation.
From Verif Require Import Base BaseFacts Utf8 Json JsonFacts JsonText Serde Url UrlEncoded Object Formats Params Metadata Dcql
  Request Response Session X509 Client Builder Server ExVerifier.
From Verif Require Import Spec SpecObject SpecRequest SpecBuilder SpecSession SpecServer SpecVerifierEx SpecAtomic SpecExHistory SpecExAtomic SpecConverge
  StoreFacts PfBuilder UuidFacts PfSession PfServer PfHistory PfFresh PfExServer PfExHistory PfAtomic PfExAtomic.

(** Two sorted stores with the same sessions are equal. *)
Lemma ssorted_above k v m : ssorted ((k, v) :: m) -> forall u s, st_get u m = Some s -> (k < u)%N.
Proof.
  intros S. inversion S as [|x y S' F]; subst. clear S. induction m as [|[k' v'] m IH]; intros u s G; [discriminate G|].
  cbn [st_get] in G. inversion F as [|x y F1 F2]; subst. cbn [fst] in F1. destruct (N.eqb u k') eqn:E.
  - apply N.eqb_eq in E. now subst.
  - inversion S'; subst. eapply IH; eauto.
Qed.
Lemma ssorted_ext m : forall m', ssorted m -> ssorted m' -> (forall u, st_get u m = st_get u m') -> m = m'.
Proof.
  induction m as [|[k v] m IH]; intros [|[k' v'] m'] S S' G; [reflexivity| | |].
  - specialize (G k'). cbn [st_get] in G. rewrite N.eqb_refl in G. discriminate G.
  - specialize (G k). cbn [st_get] in G. rewrite N.eqb_refl in G. discriminate G.
  - assert (k' = k) as ->.
    { pose proof (G k) as G1. pose proof (G k') as G2. cbn [st_get] in G1, G2. rewrite N.eqb_refl in G1, G2.
      destruct (N.eqb k k') eqn:E; [apply N.eqb_eq in E; now symmetry|]. rewrite N.eqb_sym, E in G2. symmetry in G1.
      pose proof (ssorted_above _ _ _ S' _ _ G1). pose proof (ssorted_above _ _ _ S _ _ G2). lia. }
    assert (v' = v) as -> by (specialize (G k); cbn [st_get] in G; rewrite N.eqb_refl in G; congruence).
    f_equal. apply IH; [now inversion S|now inversion S'|]. intros u. specialize (G u). cbn [st_get] in G. destruct (N.eqb u k) eqn:E; [|exact G].
    apply N.eqb_eq in E. subst u. destruct (st_get k m) as [x|] eqn:E1; [apply (ssorted_above _ _ _ S) in E1; lia|].
    destruct (st_get k m') as [x|] eqn:E2; [apply (ssorted_above _ _ _ S') in E2; lia|reflexivity].
Qed.

Section S.
Variable up : string -> option url.
Variable op : string -> res string.
Variable a : adapter.
Notation v := (app_validator op).
Lemma judge_same s s' r : v s r = v s' r.
Proof. destruct r; reflexivity. Qed.

(** What a request that is not answered with an error does. *)
Lemma serve_initiate n f id m m' j r : run false v (handler up a (HInitiate n f id)) m = (m', j, Ok r) -> (forall k, r <> RError k) ->
  exists s d, rb_prepare up (initiate_builder a n f) id (ap_wallet a) = Ok (s, d) /\ s_uuid s = id /\ initial_status (s_status s) /\ m' = st_insert id s m.
Proof.
  cbn [handler]. unfold initiate_request. rewrite run_pfinish. unfold build_code.
  destruct (rb_prepare up (initiate_builder a n f) id (ap_wallet a)) as [[s d]|e] eqn:E; cbn [run].
  - unfold initiate. intros H _. pose proof (prepare_initial _ _ _ _ _ _ E) as [U I]. injection H as <- _ _. exists s, d. rewrite U. auto.
  - intros H N. injection H as _ _ <-. exfalso. eapply N. reflexivity.
Qed.
Lemma serve_fetch sid m m' j r : run false v (handler up a (HRequest sid)) m = (m', j, Ok r) -> (forall k, r <> RError k) ->
  exists u s, uuid_of_string sid = Some u /\ st_get u m = Some s /\ m' = (if status_lt (s_status s) SentRequest then st_insert u (set_status s SentRequest) m else m).
Proof.
  cbn [handler]. unfold get_request_object. destruct (uuid_of_string sid) as [u|].
  - rewrite run_pfinish. unfold retrieve_code. cbn [run]. unfold get_session. destruct (st_get u m) as [s|] eqn:G; cbn [ok_or run].
    + destruct (status_lt (s_status s) SentRequest) eqn:L; cbn [run].
      * unfold update_status. rewrite G. cbn [run]. intros H _. injection H as <- _ _. exists u, s. rewrite L. auto.
      * intros H _. injection H as <- _ _. exists u, s. rewrite L. auto.
    + intros H N. injection H as _ _ <-. exfalso. eapply N. reflexivity.
  - cbn [run]. intros H N. injection H as _ _ <-. exfalso. eapply N. reflexivity.
Qed.
Lemma serve_response sid body m m' j r : run false v (handler up a (HResponse sid body)) m = (m', j, Ok r) -> (forall k, r <> RError k) ->
  exists u s x, uuid_of_string sid = Some u /\ from_form body = Ok x /\ st_get u m = Some s /\ m' = st_insert u (set_status s (Complete (v s x))) m.
Proof.
  cbn [handler]. unfold receive_response. destruct (utf8_valid body).
  2:{ cbn [run]. intros H N. injection H as _ _ <-. exfalso. eapply N. reflexivity. }
  destruct (uuid_of_string sid) as [u|].
  2:{ cbn [run]. intros H N. injection H as _ _ <-. exfalso. eapply N. reflexivity. }
  destruct (from_form body) as [x|e].
  2:{ cbn [run]. intros H N. injection H as _ _ <-. exfalso. eapply N. reflexivity. }
  rewrite run_pfinish. unfold verify_code. cbn [run]. unfold get_session. destruct (st_get u m) as [s|] eqn:G; cbn [ok_or run].
  - unfold update_status. rewrite G. intros H _. injection H as <- _ _. exists u, s, x. auto.
  - intros H N. injection H as _ _ <-. exfalso. eapply N. reflexivity.
Qed.
Lemma serve_status sid m m' j r : run false v (handler up a (HStatus sid)) m = (m', j, Ok r) -> m' = m.
Proof.
  cbn [handler]. unfold get_status. destruct (uuid_of_string sid) as [u|].
  - rewrite run_pfinish. unfold poll_code. cbn [run]. intros H. now injection H as <- _ _.
  - cbn [run]. intros H. now injection H as <- _ _.
Qed.

(** Requests about a session. *)
Definition names (sid : string) (u : uuid) : bool := match uuid_of_string sid with Some w => N.eqb w u | None => false end.
Definition fetches (u : uuid) (h : hreq) : bool := match h with HRequest sid => names sid u | _ => false end.
Definition responds (u : uuid) (h : hreq) : bool := match h with HResponse sid _ => names sid u | _ => false end.
Lemma names_eq sid u : names sid u = true <-> uuid_of_string sid = Some u.
Proof. unfold names. destruct (uuid_of_string sid) as [w|]; [|split; discriminate]. rewrite N.eqb_eq. split; [now intros ->|congruence]. Qed.
(** The status that a session has after the requests. *)
Definition left_by (hs : list hreq) (u : uuid) (st0 st : status) : Prop :=
  if existsb (responds u) hs
  then exists sid body x s, In (HResponse sid body) hs /\ uuid_of_string sid = Some u /\ from_form body = Ok x /\ st = Complete (v s x)
  else if existsb (fetches u) hs then st = SentRequest else st = st0.
Definition explained (hs : list hreq) (m : store) : Prop :=
  ssorted m /\ forall u,
    ((forall n f, ~ In (HInitiate n f u) hs) -> st_get u m = None /\ existsb (responds u) hs = false /\ existsb (fetches u) hs = false)
    /\ forall n f, In (HInitiate n f u) hs -> exists s d st, rb_prepare up (initiate_builder a n f) u (ap_wallet a) = Ok (s, d) /\ initial_status (s_status s)
         /\ st_get u m = Some (set_status s st) /\ left_by hs u (s_status s) st.
Lemma ids_in hs n f u : In (HInitiate n f u) hs -> In u (flat_map (fun h => match h with HInitiate _ _ id => [id] | _ => [] end) hs).
Proof. intros H. apply in_flat_map. exists (HInitiate n f u). split; [exact H|now left]. Qed.
Lemma ids_out hs u : In u (flat_map (fun h => match h with HInitiate _ _ id => [id] | _ => [] end) hs) -> exists n f, In (HInitiate n f u) hs.
Proof. intros H. apply in_flat_map in H. destruct H as ([n f id|sid|sid b|sid] & I & J); cbn in J; try contradiction. destruct J as [->|[]]. eauto. Qed.
Lemma started_unique hs n f n' f' u : started_once hs -> In (HInitiate n f u) hs -> In (HInitiate n' f' u) hs -> n = n' /\ f = f'.
Proof.
  unfold started_once. induction hs as [|h hs IH]; intros Nd I I'; [contradiction I|]. cbn [flat_map] in Nd.
  destruct h as [n0 f0 id|sid|sid b|sid]; cbn [app] in Nd.
  - inversion Nd as [|x y Nx Nd']; subst. destruct I as [I|I], I' as [I'|I'].
    + injection I as <- <- <-. now injection I' as <- <-.
    + injection I as <- <- <-. contradiction Nx. eapply ids_in; eassumption.
    + injection I' as <- <- <-. contradiction Nx. eapply ids_in; eassumption.
    + now apply IH.
  - destruct I as [I|I]; [discriminate I|]. destruct I' as [I'|I']; [discriminate I'|]. now apply IH.
  - destruct I as [I|I]; [discriminate I|]. destruct I' as [I'|I']; [discriminate I'|]. now apply IH.
  - destruct I as [I|I]; [discriminate I|]. destruct I' as [I'|I']; [discriminate I'|]. now apply IH.
Qed.
Lemma started_tail h hs : started_once (h :: hs) -> started_once hs.
Proof. unfold started_once. cbn [flat_map]. destruct h; cbn [app]; auto. intros H. now inversion H. Qed.

Lemma explained_turn l m : in_turn up op a l m -> started_once (map fst l) -> no_errors l -> explained (map fst l) m.
Proof.
  induction 1 as [|l m h m' j r T IH R]; intros Nd Ne.
  - split; [constructor|]. intros u. split; [auto|]. intros n f [].
  - cbn [map fst] in *. assert (Ne' : no_errors l) by (intros h' k I; apply (Ne h' k); now right).
    assert (Nr : forall k, r <> RError k) by (intros k ->; apply (Ne h k); now left).
    destruct (IH (started_tail _ _ Nd) Ne') as (S & E). clear IH. set (hs := map fst l) in *.
    destruct h as [n f id|sid|sid body|sid].
    + destruct (serve_initiate _ _ _ _ _ _ _ R Nr) as (s & d & P & U & I & ->). split; [now apply ssorted_insert|]. intros u.
      unfold started_once in Nd. cbn [flat_map app] in Nd. inversion Nd as [|x y Nx Nd']; subst x y.
      assert (Fresh : forall n0 f0, ~ In (HInitiate n0 f0 id) hs) by (intros n0 f0 J; apply Nx; eapply ids_in; exact J).
      destruct (N.eq_dec u id) as [->|Nu].
      * split; [intros Q; exfalso; apply (Q n f); now left|]. intros n0 f0 [J|J]; [|exfalso; now apply (Fresh n0 f0)].
        injection J as <- <-. exists s, d, (s_status s). split; [exact P|]. split; [exact I|]. rewrite st_get_insert, N.eqb_refl.
        split; [destruct s; reflexivity|]. unfold left_by. cbn [existsb responds fetches orb].
        destruct (E id) as [E1 _]. destruct (E1 Fresh) as (_ & -> & ->). reflexivity.
      * destruct (E u) as [E1 E2]. rewrite st_get_insert, (proj2 (N.eqb_neq u id) Nu). unfold left_by. cbn [existsb responds fetches orb]. split.
        -- intros Q. apply E1. intros n0 f0 J. apply (Q n0 f0). now right.
        -- intros n0 f0 [J|J]; [injection J as _ _ ->; contradiction|]. destruct (E2 n0 f0 J) as (s0 & d0 & st & P0 & I0 & G0 & L0). exists s0, d0, st.
           split; [exact P0|]. split; [exact I0|]. split; [exact G0|]. unfold left_by in L0. destruct (existsb (responds u) hs); [|exact L0].
           destruct L0 as (sid & b & x & s1 & J1 & L0). exists sid, b, x, s1. split; [now right|exact L0].
    + destruct (serve_fetch _ _ _ _ _ R Nr) as (w & s & Su & G & ->).
      assert (Hw : exists n f, In (HInitiate n f w) hs).
      { destruct (in_dec N.eq_dec w (flat_map (fun h => match h with HInitiate _ _ id => [id] | _ => [] end) hs)) as [Y|Y]; [now apply ids_out|].
        destruct (E w) as [E1 _]. destruct E1 as (E1 & _); [|congruence]. intros n f J. apply Y. eapply ids_in. exact J. }
      split; [destruct (status_lt (s_status s) SentRequest); [now apply ssorted_insert|exact S]|]. intros u. destruct (E u) as [E1 E2]. split.
      * intros Q. assert (Q' : forall n f, ~ In (HInitiate n f u) hs) by (intros n f J; apply (Q n f); now right). destruct (E1 Q') as (G0 & R0 & F0).
        assert (Nu : u <> w) by congruence.
        split; [|split; [exact R0|]].
        -- destruct (status_lt (s_status s) SentRequest); [|exact G0]. now rewrite st_get_insert, (proj2 (N.eqb_neq u w) Nu).
        -- cbn [existsb fetches]. rewrite F0, Bool.orb_false_r. unfold names. rewrite Su. apply N.eqb_neq. congruence.
      * intros n f [J|J]; [discriminate J|]. destruct (E2 n f J) as (s0 & d0 & st & P0 & I0 & G0 & L0).
        destruct (N.eq_dec u w) as [->|Nu].
        -- rewrite G in G0. injection G0 as ->. exists s0, d0, (if status_lt st SentRequest then SentRequest else st). split; [exact P0|]. split; [exact I0|].
           cbn [set_status s_status]. split.
           { destruct (status_lt st SentRequest); [now rewrite st_get_insert, N.eqb_refl|exact G]. }
           unfold left_by in *. cbn [existsb responds fetches orb]. rewrite (proj2 (names_eq sid w) Su). cbn [orb].
           destruct (existsb (responds w) hs).
           ++ destruct L0 as (sid1 & b & x & s1 & J1 & L1 & L2 & ->). exists sid1, b, x, s1. split; [now right|]. auto.
           ++ destruct (existsb (fetches w) hs); subst st; [reflexivity|]. destruct I0 as [->| ->]; reflexivity.
        -- exists s0, d0, st. split; [exact P0|]. split; [exact I0|]. split.
           { destruct (status_lt (s_status s) SentRequest); [|exact G0]. now rewrite st_get_insert, (proj2 (N.eqb_neq u w) Nu). }
           unfold left_by in *. cbn [existsb responds fetches orb].
           assert (names sid u = false) as -> by (unfold names; rewrite Su; apply N.eqb_neq; congruence). cbn [orb].
           destruct (existsb (responds u) hs); [|exact L0]. destruct L0 as (sid1 & b & x & s1 & J1 & L0). exists sid1, b, x, s1. split; [now right|exact L0].
    + destruct (serve_response _ _ _ _ _ _ R Nr) as (w & s & x & Su & Fx & G & ->).
      assert (Hw : exists n f, In (HInitiate n f w) hs).
      { destruct (in_dec N.eq_dec w (flat_map (fun h => match h with HInitiate _ _ id => [id] | _ => [] end) hs)) as [Y|Y]; [now apply ids_out|].
        destruct (E w) as [E1 _]. destruct E1 as (E1 & _); [|congruence]. intros n f J. apply Y. eapply ids_in. exact J. }
      split; [now apply ssorted_insert|]. intros u. destruct (E u) as [E1 E2]. split.
      * intros Q. assert (Q' : forall n f, ~ In (HInitiate n f u) hs) by (intros n f J; apply (Q n f); now right). destruct (E1 Q') as (G0 & R0 & F0).
        assert (Nu : u <> w) by congruence.
        split; [now rewrite st_get_insert, (proj2 (N.eqb_neq u w) Nu)|split; [|exact F0]].
        cbn [existsb responds]. rewrite R0, Bool.orb_false_r. unfold names. rewrite Su. apply N.eqb_neq. congruence.
      * intros n f [J|J]; [discriminate J|]. destruct (E2 n f J) as (s0 & d0 & st & P0 & I0 & G0 & L0).
        destruct (N.eq_dec u w) as [->|Nu].
        -- rewrite G in G0. injection G0 as ->. exists s0, d0, (Complete (v (set_status s0 st) x)). split; [exact P0|]. split; [exact I0|].
           split; [now rewrite st_get_insert, N.eqb_refl|].
           unfold left_by. cbn [existsb responds]. rewrite (proj2 (names_eq sid w) Su). cbn [orb].
           exists sid, body, x, (set_status s0 st). split; [now left|]. auto.
        -- exists s0, d0, st. split; [exact P0|]. split; [exact I0|]. split; [now rewrite st_get_insert, (proj2 (N.eqb_neq u w) Nu)|].
           unfold left_by in *. cbn [existsb responds fetches orb].
           assert (names sid u = false) as -> by (unfold names; rewrite Su; apply N.eqb_neq; congruence). cbn [orb].
           destruct (existsb (responds u) hs); [|exact L0]. destruct L0 as (sid1 & b & x1 & s1 & J1 & L0). exists sid1, b, x1, s1. split; [now right|exact L0].
    + apply serve_status in R. subst m'. split; [exact S|]. intros u. destruct (E u) as [E1 E2]. split.
      * intros Q. apply E1. intros n f J. apply (Q n f). now right.
      * intros n f [J|J]; [discriminate J|]. destruct (E2 n f J) as (s0 & d0 & st & P0 & I0 & G0 & L0). exists s0, d0, st.
        split; [exact P0|]. split; [exact I0|]. split; [exact G0|]. unfold left_by in *. cbn [existsb responds fetches orb].
        destruct (existsb (responds u) hs); [|exact L0]. destruct L0 as (sid1 & b & x1 & s1 & J1 & L0). exists sid1, b, x1, s1. split; [now right|exact L0].
Qed.
Lemma existsb_same (p : hreq -> bool) hs hs' : same_requests hs hs' -> existsb p hs = existsb p hs'.
Proof.
  intros H. destruct (existsb p hs) eqn:E; symmetry.
  - apply existsb_exists in E. destruct E as (x & I & P). apply existsb_exists. exists x. split; [now apply H|exact P].
  - destruct (existsb p hs') eqn:E'; [|reflexivity]. apply existsb_exists in E'. destruct E' as (x & I & P).
    assert (existsb p hs = true) by (apply existsb_exists; exists x; split; [now apply H|exact P]). congruence.
Qed.
Lemma explained_unique hs hs' m m' : explained hs m -> explained hs' m' -> same_requests hs hs' -> started_once hs -> one_response hs -> m = m'.
Proof.
  intros (S & E) (S' & E') Q Nd One. apply ssorted_ext; [exact S|exact S'|]. intros u. destruct (E u) as [E1 E2], (E' u) as [E1' E2'].
  destruct (in_dec N.eq_dec u (flat_map (fun h => match h with HInitiate _ _ id => [id] | _ => [] end) hs)) as [Y|Y].
  - apply ids_out in Y. destruct Y as (n & f & I). destruct (E2 n f I) as (s & d & st & P & _ & G & L).
    destruct (E2' n f (proj1 (Q _) I)) as (s' & d' & st' & P' & _ & G' & L'). rewrite P in P'. injection P' as <- <-. rewrite G, G'. f_equal. f_equal.
    unfold left_by in *. rewrite <- (existsb_same _ _ _ Q) in L'. rewrite <- (existsb_same (fetches u) _ _ Q) in L'.
    destruct (existsb (responds u) hs); [|destruct (existsb (fetches u) hs); congruence].
    destruct L as (sid & b & x & s1 & J & U & F & ->). destruct L' as (sid' & b' & x' & s1' & J' & U' & F' & ->).
    assert (b = b') as -> by (apply (One sid sid'); [exact J|now apply Q|congruence]).
    rewrite F in F'. injection F' as <-. f_equal.
  - assert (N1 : forall n f, ~ In (HInitiate n f u) hs) by (intros n f J; apply Y; eapply ids_in; exact J).
    destruct (E1 N1) as (-> & _). destruct E1' as (-> & _); [|reflexivity]. intros n f J. apply (N1 n f). now apply Q.
Qed.
End S.

Lemma run_sorted {A} v (p : prog A) : forall m m' j r, run false v p m = (m', j, r) -> ssorted m -> ssorted m'.
Proof.
  induction p as [r0|s k IH|u st k IH|u k IH|u k IH|s x k IH]; intros m m' j r R S; cbn [run] in R.
  - now injection R as <- _ _.
  - unfold initiate in R. eapply IH; [exact R|now apply ssorted_insert].
  - unfold update_status in R. destruct (st_get u m); eapply IH; try exact R; [now apply ssorted_insert|exact S].
  - eapply IH; [exact R|exact S].
  - unfold remove_session in R. destruct (st_get u m); eapply IH; try exact R; [now apply ssorted_remove|exact S].
  - destruct (run false v (k (v s x)) m) as [[m1 j1] r1] eqn:E. injection R as <- _ _. eapply IH; [exact E|exact S].
Qed.
Lemma turn_sorted up op a l m : in_turn up op a l m -> ssorted m.
Proof. induction 1 as [|l m h m' j r T IH R]; [constructor|]. eapply run_sorted; eassumption. Qed.

(** C129: fetching a request object, sending a response and asking for the status can be repeated: delivered again directly afterwards, the
    request gets the same answer and changes nothing. *)
Lemma c129_repeat_pf :
  forall (url_parse : string -> option url) (jwe_open : string -> res string) (a : adapter) (h : hreq) (l : list (hreq * reply))
         (m m' m2 : store) judged judged' (r r' : reply),
    in_turn url_parse jwe_open a l m ->
    (forall nonce fresh id, h <> HInitiate nonce fresh id) ->
    run false (app_validator jwe_open) (handler url_parse a h) m = (m', judged, Ok r) ->
    run false (app_validator jwe_open) (handler url_parse a h) m' = (m2, judged', Ok r') ->
    r' = r /\ m2 = m'.
Proof.
  intros up op a h l m m' m2 j j' r r' T Ni R R'. pose proof (turn_sorted _ _ _ _ _ T) as S. destruct h as [n f id|sid|sid body|sid].
  - now contradiction (Ni n f id).
  - cbn [handler] in R, R'. unfold get_request_object in R, R'. destruct (uuid_of_string sid) as [u|].
    2:{ cbn [run] in R, R'. injection R as <- _ <-. injection R' as <- _ <-. auto. }
    rewrite run_pfinish in R, R'. unfold retrieve_code in R, R'. cbn [run] in R, R'. unfold get_session in R, R'.
    destruct (st_get u m) as [s|] eqn:G; cbn [ok_or run] in R.
    + destruct (status_lt (s_status s) SentRequest) eqn:L; cbn [run] in R.
      * unfold update_status in R. rewrite G in R. cbn [run] in R. injection R as <- _ <-. rewrite st_get_insert, N.eqb_refl in R'.
        cbn [ok_or set_status s_status run] in R'. replace (status_lt SentRequest SentRequest) with false in R' by reflexivity.
        cbn [run] in R'. injection R' as <- _ <-. auto.
      * injection R as <- _ <-. rewrite G in R'. cbn [ok_or] in R'. rewrite L in R'. cbn [run] in R'. injection R' as <- _ <-. auto.
    + injection R as <- _ <-. rewrite G in R'. cbn [ok_or run] in R'. injection R' as <- _ <-. auto.
  - cbn [handler] in R, R'. unfold receive_response in R, R'. destruct (utf8_valid body).
    2:{ cbn [run] in R, R'. injection R as <- _ <-. injection R' as <- _ <-. auto. }
    destruct (uuid_of_string sid) as [u|].
    2:{ cbn [run] in R, R'. injection R as <- _ <-. injection R' as <- _ <-. auto. }
    destruct (from_form body) as [x|e].
    2:{ cbn [run] in R, R'. injection R as <- _ <-. injection R' as <- _ <-. auto. }
    rewrite run_pfinish in R, R'. unfold verify_code in R, R'. cbn [run] in R, R'. unfold get_session in R, R'.
    destruct (st_get u m) as [s|] eqn:G; cbn [ok_or run] in R.
    + unfold update_status in R. rewrite G in R. injection R as <- _ <-.
      assert (G2 : st_get u (st_insert u (set_status s (Complete (app_validator op s x))) m) = Some (set_status s (Complete (app_validator op s x))))
        by now rewrite st_get_insert, N.eqb_refl.
      rewrite G2 in R'. cbn [ok_or run] in R'. unfold update_status in R'. rewrite G2 in R'. injection R' as <- _ <-. split; [reflexivity|].
      apply insert_same; [now apply ssorted_insert|]. rewrite G2. f_equal.
    + injection R as <- _ <-. rewrite G in R'. cbn [ok_or run] in R'. injection R' as <- _ <-. auto.
  - pose proof (serve_status _ _ _ _ _ _ _ _ R) as ->. rewrite R in R'. injection R' as <- _ <-. auto.
Qed.

(** C129: when each session is started once and is sent one response only, however often, and no request is answered with an error, the
    sessions that are left depend only on which requests there were: not on how often each was delivered and not on their order. *)
Lemma c129_converge_pf :
  forall (url_parse : string -> option url) (jwe_open : string -> res string) (a : adapter) (l l' : list (hreq * reply)) (m m' : store),
    in_turn url_parse jwe_open a l m -> in_turn url_parse jwe_open a l' m' ->
    same_requests (map fst l) (map fst l') ->
    started_once (map fst l) -> started_once (map fst l') -> one_response (map fst l) -> no_errors l -> no_errors l' ->
    m = m'.
Proof.
  intros up op a l l' m m' T T' Q Nd Nd' One Ne Ne'.
  eapply explained_unique; [eapply explained_turn; eassumption|eapply explained_turn; eassumption|exact Q|exact Nd|exact One].
Qed.

(** C129: so it is when requests are served at the same time, in any interleaving in which none is dropped and no fetch is under way while a
    verdict on its session is recorded. *)
Lemma perm_map_in {A B} (f : A -> B) l l' x : Permutation l l' -> In x (map f l) <-> In x (map f l').
Proof. intros P. split; intros H; apply in_map_iff in H; destruct H as (y & E & I); apply in_map_iff; exists y; split; auto; [now apply (Permutation_in _ P)|now apply (Permutation_in _ (Permutation_sym P))]. Qed.
Lemma started_perm l l' : Permutation l l' -> started_once l -> started_once l'.
Proof. unfold started_once. intros P. apply Permutation_NoDup. now apply Permutation_flat_map. Qed.
Lemma c129_concurrent_pf :
  forall (url_parse : string -> option url) (jwe_open : string -> res string) (a : adapter) (x y : hsys),
    undropped url_parse jwe_open a x -> hs_tasks x = [] -> sessions_apart (hs_log x) -> no_late_fetch (hs_log x) ->
    undropped url_parse jwe_open a y -> hs_tasks y = [] -> sessions_apart (hs_log y) -> no_late_fetch (hs_log y) ->
    same_requests (map fst (replies (hs_log x))) (map fst (replies (hs_log y))) ->
    started_once (map fst (replies (hs_log x))) -> started_once (map fst (replies (hs_log y))) ->
    one_response (map fst (replies (hs_log x))) -> no_errors (replies (hs_log x)) -> no_errors (replies (hs_log y)) ->
    hs_store x = hs_store y.
Proof.
  intros up op a x y Ux Tx Ax Lx Uy Ty Ay Ly Q Nx Ny One Ex Ey.
  destruct (c123_arranged_pf up op a x Ux Tx Ax Lx) as (l & ex & Il & Pl & Xl).
  destruct (c123_arranged_pf up op a y Uy Ty Ay Ly) as (l' & ex' & Il' & Pl' & Xl').
  assert (ex = []) as ->.
  { destruct ex as [|[h r] ex]; [reflexivity|]. destruct (Xl h r (or_introl eq_refl)) as (_ & n & ->). contradiction (Ex h n).
    apply (Permutation_in _ (Permutation_sym Pl)), in_or_app. right. now left. }
  assert (ex' = []) as ->.
  { destruct ex' as [|[h r] ex']; [reflexivity|]. destruct (Xl' h r (or_introl eq_refl)) as (_ & n & ->). contradiction (Ey h n).
    apply (Permutation_in _ (Permutation_sym Pl')), in_or_app. right. now left. }
  rewrite app_nil_r in Pl, Pl'. pose proof (Permutation_map fst Pl) as Ml. pose proof (Permutation_map fst Pl') as Ml'.
  eapply (c129_converge_pf up op a l l' _ _ Il Il').
  - intros h. rewrite <- (perm_map_in fst _ _ h Pl), <- (perm_map_in fst _ _ h Pl'). apply Q.
  - exact (started_perm _ _ Ml Nx).
  - exact (started_perm _ _ Ml' Ny).
  - intros sid sid' b b' I I'. apply One; [exact (Permutation_in _ (Permutation_sym Ml) I)|exact (Permutation_in _ (Permutation_sym Ml) I')].
  - intros h n I. apply (Ex h n), (Permutation_in _ (Permutation_sym Pl) I).
  - intros h n I. apply (Ey h n), (Permutation_in _ (Permutation_sym Pl') I).
Qed.

(** Examples: the three requests with the fetch and the response each twice, and in the other order. *)
Lemma x_begin : exists s j, s_uuid s = 7%N /\ s_status s = SentRequestByReference
  /\ run false (app_validator toy_open) (handler simple_parse xa xi) [] = ([(7%N, s)], [], Ok (RJson 200 j)).
Proof.
  pose proof xi_handler as X. destruct (handler simple_parse xa xi) as [|s k| | | |] eqn:Eh; try discriminate X.
  apply andb_true_iff in X as [X K]. apply andb_true_iff in X as [U St]. apply N.eqb_eq in U.
  destruct (k (Ok tt)) as [[r0|]| | | | |] eqn:Ek; try discriminate K. destruct r0 as [n j| |]; try discriminate K. apply N.eqb_eq in K. subst n.
  exists s, j. split; [exact U|]. split; [destruct (s_status s); congruence|]. cbn [run initiate st_insert]. rewrite Ek. cbn [run]. now rewrite U.
Qed.
Definition x_ok : reply := RJson 200 (JObj []).
Definition x_done (s : session) : session := set_status s (Complete xo).
Lemma x_twice : exists s j, in_turn simple_parse toy_open xa
    [(xv, x_ok); (xr, RJwt (s_jwt s)); (xv, x_ok); (xr, RJwt (s_jwt s)); (xr, RJwt (s_jwt s)); (xi, RJson 200 j)] [(7%N, x_done s)]
  /\ in_turn simple_parse toy_open xa [(xr, RJwt (s_jwt s)); (xv, x_ok); (xi, RJson 200 j)] [(7%N, x_done s)].
Proof.
  destruct x_begin as (s & j & U & St & R). exists s, j.
  assert (B : in_turn simple_parse toy_open xa [(xi, RJson 200 j)] [(7%N, s)]) by exact (turn_more _ _ _ _ _ _ _ _ _ (turn_none _ _ _) R).
  assert (F : in_turn simple_parse toy_open xa [(xr, RJwt (s_jwt s)); (xi, RJson 200 j)] [(7%N, set_status s SentRequest)]).
  { eapply turn_more; [exact B|]. rewrite run_xr_one, St. reflexivity. }
  split.
  - eapply turn_more; [|exact (run_xv_one (x_done s))].
    eapply turn_more; [|exact (run_xr_one (x_done s))].
    eapply turn_more; [|exact (run_xv_one (set_status s SentRequest))].
    eapply turn_more; [|exact (run_xr_one (set_status s SentRequest))]. exact F.
  - eapply turn_more; [|exact (run_xr_one (x_done s))].
    eapply turn_more; [|exact (run_xv_one s)]. exact B.
Qed.
Example c129_converge_ex :
  exists l l' m m', in_turn simple_parse toy_open xa l m /\ in_turn simple_parse toy_open xa l' m' /\ same_requests (map fst l) (map fst l')
    /\ started_once (map fst l) /\ started_once (map fst l') /\ one_response (map fst l) /\ no_errors l /\ no_errors l'
    /\ length l = 6 /\ length l' = 3 /\ map s_status (map snd m) = [Complete xo].
Proof.
  destruct x_twice as (s & j & T & T'). eexists _, _, _, _. split; [exact T|]. split; [exact T'|]. cbn [map fst snd].
  split; [intros h; cbn [In]; tauto|]. split; [|split; [|split; [|split; [|split]]]].
  - exact (NoDup_cons 7%N (@in_nil _ 7%N) (NoDup_nil _)).
  - exact (NoDup_cons 7%N (@in_nil _ 7%N) (NoDup_nil _)).
  - intros sid sid' b b' I I' _. unfold xi, xr, xv in I, I'. cbn [In] in I, I'.
    assert (b = "response=a.b.c") as -> by (decompose [or] I; try contradiction; match goal with X : _ = HResponse _ b |- _ => first [discriminate X|now injection X] end).
    decompose [or] I'; try contradiction; match goal with X : _ = HResponse _ b' |- _ => first [discriminate X|now injection X] end.
  - intros h n I. cbn [In] in I. unfold x_ok in I. decompose [or] I; try contradiction; match goal with X : _ = (h, RError n) |- _ => discriminate X end.
  - intros h n I. cbn [In] in I. unfold x_ok in I. decompose [or] I; try contradiction; match goal with X : _ = (h, RError n) |- _ => discriminate X end.
  - split; [reflexivity|]. split; reflexivity.
Qed.
Example c129_repeat_ex :
  exists l m s, in_turn simple_parse toy_open xa l m /\ length l = 2
    /\ run false (app_validator toy_open) (handler simple_parse xa xv) m = ([(7%N, x_done s)], [(set_status s SentRequest, xresp)], Ok x_ok)
    /\ run false (app_validator toy_open) (handler simple_parse xa xv) [(7%N, x_done s)] = ([(7%N, x_done s)], [(x_done s, xresp)], Ok x_ok).
Proof.
  destruct x_begin as (s & j & U & St & R). eexists [(xr, RJwt (s_jwt s)); (xi, RJson 200 j)], _, s.
  split; [|split; [reflexivity|]].
  - eapply turn_more; [exact (turn_more _ _ _ _ _ _ _ _ _ (turn_none _ _ _) R)|]. exact (run_xr_one s).
  - rewrite St. replace (status_lt SentRequestByReference SentRequest) with true by reflexivity.
    split; [exact (run_xv_one (set_status s SentRequest))|exact (run_xv_one (x_done s))].
Qed.

(** One after the other instead. *)
Definition x_serial (s : session) (j : json) : list (hreq * hevent) :=
  let s1 := set_status s SentRequest in
  [(xv, HReply x_ok); (xv, HDoes (EvUpdate 7%N (Complete xo) (Ok tt))); (xv, HDoes (EvValidate s1 xresp xo)); (xv, HDoes (EvGet 7%N (Ok s1)));
   (xr, HReply (RJwt (s_jwt s))); (xr, HDoes (EvUpdate 7%N SentRequest (Ok tt))); (xr, HDoes (EvGet 7%N (Ok s)));
   (xi, HReply (RJson 200 j)); (xi, HDoes (EvInitiate s (Ok tt)))].
Lemma x_both : exists s j, s_uuid s = 7%N /\ s_status s = SentRequestByReference
  /\ xun (mk_hsys [(7%N, x_done (set_status s SentRequest))] [] (x_in_time s j))
  /\ xun (mk_hsys [(7%N, x_done (set_status s SentRequest))] [] (x_serial s j)).
Proof.
  destruct x_overlap as (s & j & k & U & S0 & Eh & Ek & H). exists s, j. split; [exact U|]. split; [exact S0|]. split.
  - unfold x_in_time.
    apply (x_return _ [] xr _ []). apply (x_return _ [(xr, Done (Ok (RJwt (s_jwt s))))] xv (RJson 200 (JObj [])) []).
    apply (x_act [(7%N, set_status s SentRequest)] _ [(xr, Done (Ok (RJwt (s_jwt s))))] xv xrecord (Done (Ok (RJson 200 (JObj [])))) []).
    { exact (act_update [(7%N, set_status s SentRequest)] 7%N (Complete xo) (fun x : res unit => pfinish response_reply (Done x)) false _ (Ok tt) eq_refl). }
    { discriminate. }
    apply (x_act [(7%N, s)] _ [] xr (toy_rest s) (Done (Ok (RJwt (s_jwt s)))) [(xv, xrecord)]).
    { apply toy_act. }
    { discriminate. }
    exact H.
  - unfold x_serial. cbn [app]. set (s1 := set_status s SentRequest).
    assert (G : get_session false 7%N [(7%N, s)] = Ok s) by reflexivity.
    assert (G1 : get_session false 7%N [(7%N, s1)] = Ok s1) by reflexivity.
    apply (x_return _ [] xv x_ok []).
    apply (x_act [(7%N, s1)] _ [] xv xrecord (Done (Ok (RJson 200 (JObj [])))) []).
    { exact (act_update [(7%N, s1)] 7%N (Complete xo) (fun x : res unit => pfinish response_reply (Done x)) false _ (Ok tt) eq_refl). }
    { discriminate. }
    apply (x_act [(7%N, s1)] [(7%N, s1)] [] xv (Validate s1 xresp (fun o => Update 7%N (Complete o) (fun x : res unit => pfinish response_reply (Done x)))) xrecord []).
    { exact (act_validate [(7%N, s1)] s1 xresp (fun o => Update 7%N (Complete o) (fun x : res unit => pfinish response_reply (Done x))) xo). }
    { intros s2 r1 o1 E. injection E as <- <- <-. symmetry. apply toy_judged. }
    apply (x_act [(7%N, s1)] [(7%N, s1)] [] xv (handler simple_parse xa xv) _ []).
    { rewrite xv_handler. unfold verify_code. cbn [pfinish]. rewrite <- G1.
      exact (act_get [(7%N, s1)] 7%N (fun x => pfinish response_reply (match x with Err e => Done (Err e) | Ok s => Validate s xresp (fun o => Update 7%N (Complete o) (fun x => Done x)) end)) false). }
    { discriminate. }
    cbn [app]. apply x_start. apply (x_return _ [] xr _ []).
    apply (x_act [(7%N, s)] _ [] xr (toy_rest s) (Done (Ok (RJwt (s_jwt s)))) []).
    { apply toy_act. }
    { discriminate. }
    apply (x_act [(7%N, s)] [(7%N, s)] [] xr (handler simple_parse xa xr) (toy_rest s) []).
    { rewrite xr_handler. unfold retrieve_code. cbn [pfinish].
      pose proof (act_get [(7%N, s)] 7%N (fun x => pfinish request_reply (match x with
        | Err e => Done (Err e)
        | Ok s => if status_lt (s_status s) SentRequest then Update 7%N SentRequest (fun x => Done (rmap (fun _ => s_jwt s) x)) else Done (Ok (s_jwt s)) end)) false) as A.
      rewrite G in A. rewrite S0 in A. exact A. }
    { discriminate. }
    cbn [app]. apply x_start. apply (x_return _ [] xi (RJson 200 j) []).
    apply (x_act [] [(7%N, s)] [] xi (Initiate s k) (Done (Ok (RJson 200 j))) []).
    + rewrite <- Ek. apply (act_initiate [] s k false [(7%N, s)] (Ok tt)). cbn [initiate st_insert]. now rewrite U.
    + discriminate.
    + cbn [app]. rewrite <- Eh. apply x_start, undropped_init.
Qed.
Lemma x_serial_orderly s j : s_uuid s = 7%N -> s_status s = SentRequestByReference ->
  sessions_apart (x_serial s j) /\ no_late_fetch (x_serial s j).
Proof.
  intros U St. split.
  - intros u t t' [_ (c & H)] [_ (c' & H')]. unfold x_serial in H, H'. in_log H. in_log H'. injection H as _ <-. injection H' as _ <-. apply same_refl.
  - intros n h u o t E. unfold x_serial in E.
    do 5 (destruct n as [|? n]; [discriminate E|injection E as _ E]).
    destruct n as [|? n].
    + injection E as _ <- <-. cbn [hafter effect]. unfold aset, aempty. rewrite U. cbn. intros E. injection E as <-. rewrite St. cbn. lia.
    + injection E as _ E. do 3 (destruct n as [|? n]; [discriminate E|injection E as _ E]). destruct n; discriminate E.
Qed.
Lemma x_clean s j l : l = [(xi, RJson 200 j); (xr, RJwt (s_jwt s)); (xv, x_ok)] \/ l = [(xi, RJson 200 j); (xv, x_ok); (xr, RJwt (s_jwt s))] ->
  started_once (map fst l) /\ one_response (map fst l) /\ no_errors l.
Proof.
  intros L. split; [|split].
  - destruct L as [-> | ->]; exact (NoDup_cons 7%N (@in_nil _ 7%N) (NoDup_nil _)).
  - assert (V : forall sid b, In (HResponse sid b) (map fst l) -> b = "response=a.b.c").
    { intros sid b I. destruct L as [-> | ->]; cbn [map fst In] in I; unfold xi, xr, xv in I; decompose [or] I; try contradiction;
        match goal with X : _ = HResponse _ b |- _ => first [discriminate X|now injection X] end. }
    intros sid sid' b b' I I' _. now rewrite (V _ _ I), (V _ _ I').
  - intros h n I. destruct L as [-> | ->]; cbn [In] in I; unfold x_ok in I; decompose [or] I; try contradiction;
      match goal with X : _ = (h, RError n) |- _ => discriminate X end.
Qed.
Example c129_concurrent_ex :
  exists x y, undropped simple_parse toy_open xa x /\ hs_tasks x = [] /\ sessions_apart (hs_log x) /\ no_late_fetch (hs_log x)
    /\ undropped simple_parse toy_open xa y /\ hs_tasks y = [] /\ sessions_apart (hs_log y) /\ no_late_fetch (hs_log y)
    /\ same_requests (map fst (replies (hs_log x))) (map fst (replies (hs_log y)))
    /\ started_once (map fst (replies (hs_log x))) /\ started_once (map fst (replies (hs_log y)))
    /\ one_response (map fst (replies (hs_log x))) /\ no_errors (replies (hs_log x)) /\ no_errors (replies (hs_log y))
    /\ map fst (replies (hs_log x)) = [xi; xv; xr] /\ map fst (replies (hs_log y)) = [xi; xr; xv].
Proof.
  destruct x_both as (s & j & U & St & X & Y). eexists _, _. split; [exact X|]. split; [reflexivity|]. cbn [hs_log].
  destruct (x_in_time_orderly s j U St) as (I & L). split; [exact I|]. split; [exact L|]. split; [exact Y|]. split; [reflexivity|].
  destruct (x_serial_orderly s j U St) as (I' & L'). split; [exact I'|]. split; [exact L'|].
  cbn [hs_log]. change (replies (x_in_time s j)) with [(xi, RJson 200 j); (xv, x_ok); (xr, RJwt (s_jwt s))].
  change (replies (x_serial s j)) with [(xi, RJson 200 j); (xr, RJwt (s_jwt s)); (xv, x_ok)].
  destruct (x_clean s j _ (or_intror eq_refl)) as (A1 & A2 & A3). destruct (x_clean s j _ (or_introl eq_refl)) as (B1 & _ & B3).
  split; [intros h; cbn [map fst In]; tauto|]. split; [exact A1|]. split; [exact B1|]. split; [exact A2|]. split; [exact A3|]. split; [exact B3|].
  split; reflexivity.
Qed.

(** Another response to the session. *)
Definition x_other : string := "vp_token=%7B%22q%22%3A%5B%22c%22%5D%7D".
Definition xw := HResponse toy_sid x_other.
Definition x_received : json := JObj [("credentials_received", JInt 1); ("message", JStr "Verification successful")].
Lemma x_other_read : utf8_valid x_other = true /\ match from_form x_other with Ok (Unencoded u) => app_validator toy_open (toy_session 7%N) (Unencoded u) = OSuccess x_received | _ => False end.
Proof. split; vm_compute; reflexivity. Qed.
Lemma run_xw_one s : exists c, run false (app_validator toy_open) (handler simple_parse xa xw) [(7%N, s)]
  = ([(7%N, set_status s (Complete (OSuccess x_received)))], c, Ok x_ok).
Proof.
  unfold xw. cbn [handler]. unfold receive_response. destruct x_other_read as [Vu F]. rewrite Vu, toy_sid_is.
  destruct (from_form x_other) as [[u|w]|e]; try contradiction. rewrite run_pfinish. unfold verify_code. cbn [run].
  assert (G : get_session false 7%N [(7%N, s)] = Ok s) by reflexivity. rewrite G. cbn [run].
  rewrite (judge_same toy_open s (toy_session 7%N) (Unencoded u)), F. eexists. reflexivity.
Qed.
(** C129: with two responses to one session the order matters: each is answered with success and the last one judged is what the session keeps. *)
Lemma c129_two_refuted_pf :
  exists (a : adapter) (jwe_open : string -> res string) l l' m m',
    in_turn simple_parse jwe_open a l m /\ in_turn simple_parse jwe_open a l' m' /\ same_requests (map fst l) (map fst l')
    /\ started_once (map fst l) /\ started_once (map fst l') /\ no_errors l /\ no_errors l'
    /\ length l = 3 /\ length l' = 3 /\ map s_status (map snd m) <> map s_status (map snd m').
Proof.
  destruct x_begin as (s & j & U & St & R).
  assert (B : in_turn simple_parse toy_open xa [(xi, RJson 200 j)] [(7%N, s)]) by exact (turn_more _ _ _ _ _ _ _ _ _ (turn_none _ _ _) R).
  set (w := set_status s (Complete (OSuccess x_received))).
  destruct (run_xw_one s) as (c & W). destruct (run_xw_one (x_done s)) as (c' & W').
  exists xa, toy_open, [(xw, x_ok); (xv, x_ok); (xi, RJson 200 j)], [(xv, x_ok); (xw, x_ok); (xi, RJson 200 j)], [(7%N, set_status (x_done s) (Complete (OSuccess x_received)))], [(7%N, x_done w)].
  split; [eapply turn_more; [|exact W']; eapply turn_more; [exact B|exact (run_xv_one s)]|].
  split; [eapply turn_more; [|exact (run_xv_one w)]; eapply turn_more; [exact B|exact W]|]. cbn [map fst snd].
  split; [intros h; cbn [In]; tauto|].
  split; [exact (NoDup_cons 7%N (@in_nil _ 7%N) (NoDup_nil _))|]. split; [exact (NoDup_cons 7%N (@in_nil _ 7%N) (NoDup_nil _))|].
  split; [intros h n I; cbn [In] in I; unfold x_ok in I; decompose [or] I; try contradiction; match goal with X : _ = (h, RError n) |- _ => discriminate X end|].
  split; [intros h n I; cbn [In] in I; unfold x_ok in I; decompose [or] I; try contradiction; match goal with X : _ = (h, RError n) |- _ => discriminate X end|].
  split; [reflexivity|]. split; [reflexivity|]. cbn. unfold xo, x_received, toy_info. discriminate.
Qed.
