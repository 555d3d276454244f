From Coq Require Import Lia ZArith.
From Verif Require Import Base BaseFacts Utf8 Json Url Request Response Session Builder Server ExVerifier ExHttp ExWeb ExCli ExConsole ExCliWeb.
From Verif Require Import SpecJsonText GrammarFacts SpecEncodings SpecBuilder SpecSession SpecObject StoreFacts PfBuilder UuidFacts Spec SpecExample
  SpecVerifierEx SpecWeb PfWeb PfExCli SpecConsole PfConsole SpecCliWeb.
From Verif Require SpecCli.
From Verif Require Import SpecRequest.

(** The places of the command line verifier. *)
Inductive cplace := QRequest (seg : string) | QResponse (seg : string) | QNowhere.
Definition cplace_of (p : string) : cplace :=
  match segment "/request/" p with
  | Some s => QRequest s
  | None => match segment "/response/" p with Some s => QResponse s | None => QNowhere end end.
Definition at_cplace (p : string) (x : cplace) : Prop :=
  match x with
  | QRequest seg => under "request" p seg
  | QResponse seg => under "response" p seg
  | QNowhere => ~ has_segment "request" p /\ ~ has_segment "response" p
  end.
Lemma cplace_is p : at_cplace p (cplace_of p).
Proof.
  unfold cplace_of. rewrite seg_request, seg_response.
  destruct (segment ("/" +:+ "request" +:+ "/") p) as [s|] eqn:E1; [now apply under_iff|].
  destruct (segment ("/" +:+ "response" +:+ "/") p) as [s|] eqn:E2; [now apply under_iff|].
  split; now apply no_segment.
Qed.
Lemma cplace_only p x : at_cplace p x -> cplace_of p = x.
Proof.
  destruct x as [s|s|]; cbn [at_cplace]; intros H.
  - destruct H as (E & N & W). apply without_slash in W. apply String.eqb_neq in N. subst p. unfold cplace_of, segment. cbn. now rewrite N, W.
  - destruct H as (E & N & W). apply without_slash in W. apply String.eqb_neq in N. subst p. unfold cplace_of, segment. cbn. now rewrite N, W.
  - pose proof (cplace_is p) as P. destruct (cplace_of p) as [s|s|]; cbn [at_cplace] in P; try reflexivity; exfalso;
      destruct H as (N1 & N2); first [apply N1; eexists; eassumption|apply N2; eexists; eassumption].
Qed.
Lemma cdispatch_is q : cli_dispatch q =
  if String.eqb (hq_method q) "OPTIONS" then CRefuse 200 else
  match cplace_of (hq_path q) with
  | QRequest seg => if is_get (hq_method q) then match path_param seg with Some sid => CTo (CFetch sid) | None => CRefuse 400 end else CRefuse 405
  | QResponse seg => if String.eqb (hq_method q) "POST" then
        match path_param seg with Some sid => if oversized q then CRefuse 413 else CTo (CResponse sid (hq_body q)) | None => CRefuse 400 end else CRefuse 405
  | QNowhere => CRefuse 404
  end.
Proof.
  unfold cli_dispatch, cplace_of. destruct (String.eqb (hq_method q) "OPTIONS"); [reflexivity|].
  destruct (segment "/request/" _); [reflexivity|]. destruct (segment "/response/" _); reflexivity.
Qed.

(** C109: the two handlers of the command line verifier are called exactly for the requests they are meant for. *)
Lemma c109_routes_pf :
  forall q : hrequest,
    (forall sid, cli_dispatch q = CTo (CFetch sid) <-> reads (hq_method q) /\ names_session "request" (hq_path q) sid)
    /\ (forall sid body, cli_dispatch q = CTo (CResponse sid body) <->
          hq_method q = "POST" /\ names_session "response" (hq_path q) sid /\ body = hq_body q /\ fits q).
Proof.
  intros q. rewrite cdispatch_is. pose proof (cplace_is (hq_path q)) as P. split.
  - intros sid. split.
    + destruct (String.eqb (hq_method q) "OPTIONS"); [discriminate|]. destruct (cplace_of (hq_path q)) as [s|s|]; cbn [at_cplace] in P; [| |discriminate].
      * destruct (is_get (hq_method q)) eqn:M; [|discriminate]. apply is_get_iff in M. destruct (path_param s) as [x|] eqn:E; [|discriminate]. intros [= <-].
        split; [exact M|]. now apply (names_iff _ _ _ _ P).
      * destruct (String.eqb (hq_method q) "POST"), (path_param s), (oversized q); discriminate.
    + intros [M H]. rewrite (not_options _ (or_introl M)). destruct (names_under _ _ _ H) as (s & U). rewrite (cplace_only _ (QRequest s) U).
      apply is_get_iff in M. rewrite M. apply (names_iff _ _ _ _ U) in H. now rewrite H.
  - intros sid body. split.
    + destruct (String.eqb (hq_method q) "OPTIONS"); [discriminate|]. destruct (cplace_of (hq_path q)) as [s|s|]; cbn [at_cplace] in P; [| |discriminate].
      * destruct (is_get (hq_method q)), (path_param s); discriminate.
      * destruct (String.eqb_spec (hq_method q) "POST") as [M|]; [|discriminate]. destruct (path_param s) as [x|] eqn:E; [|discriminate].
        destruct (oversized q) eqn:O; [discriminate|]. intros [= <- <-]. split; [exact M|]. split; [now apply (names_iff _ _ _ _ P)|]. split; [reflexivity|]. now apply fits_iff.
    + intros (M & H & -> & F). rewrite (not_options _ (or_intror M)). destruct (names_under _ _ _ H) as (s & U). rewrite (cplace_only _ (QResponse s) U).
      rewrite M. cbn [String.eqb Ascii.eqb Bool.eqb]. apply (names_iff _ _ _ _ U) in H. rewrite H. apply fits_iff in F. now rewrite F.
Qed.
Definition web_get (m p : string) : hrequest := mk_hrequest m p None None "".
Definition web_post (p body : string) : hrequest := mk_hrequest "POST" p None None body.
Example c109_routes_ex :
  cli_dispatch (web_get "GET" ("/request/" +:+ uuid_str 7%N)) = CTo (CFetch (uuid_str 7%N))
  /\ cli_dispatch (web_post ("/response/" +:+ uuid_str 7%N) "vp_token={}") = CTo (CResponse (uuid_str 7%N) "vp_token={}")
  /\ cli_dispatch (web_get "GET" "/request/a%2Fb") = CTo (CFetch "a/b").
Proof. repeat split. Qed.

(** C109: any other request is sent back, with a status code that says why. *)
Lemma c109_refused_pf :
  forall q : hrequest,
    let m := hq_method q in
    let p := hq_path q in
    let sent_back n := cli_dispatch q = CRefuse n in
    (forall n, sent_back n -> In n [200; 400; 404; 405; 413]%N)
    /\ (sent_back 200%N <-> m = "OPTIONS")
    /\ (sent_back 404%N <-> m <> "OPTIONS" /\ ~ cli_known p)
    /\ (sent_back 405%N <-> m <> "OPTIONS" /\ cli_known p /\ ~ cli_allowed p m)
    /\ (sent_back 413%N <-> ~ fits q /\ m = "POST" /\ exists sid, names_session "response" p sid)
    /\ (sent_back 400%N <-> cli_allowed p m /\ (garbled "request" p \/ garbled "response" p)).
Proof.
  intros q m p sent_back. unfold sent_back. rewrite cdispatch_is. fold m p.
  assert (A : cli_allowed p m <-> match cplace_of p with QRequest _ => is_get m | QResponse _ => String.eqb m "POST" | QNowhere => false end = true).
  { split.
    - intros [[(s & U) M]|[(s & U) M]].
      + rewrite (cplace_only p (QRequest s) U). now apply is_get_iff.
      + rewrite (cplace_only p (QResponse s) U). now apply String.eqb_eq.
    - pose proof (cplace_is p) as P. unfold cli_allowed, has_segment. destruct (cplace_of p) as [s|s|]; cbn [at_cplace] in P; intros M; [| |discriminate];
        first [apply is_get_iff in M|apply String.eqb_eq in M]; eauto 6. }
  assert (K : cli_known p <-> cplace_of p <> QNowhere).
  { split.
    - intros (x & [[(s & U) _]|[(s & U) _]]); [rewrite (cplace_only p (QRequest s) U)|rewrite (cplace_only p (QResponse s) U)]; discriminate.
    - pose proof (cplace_is p) as P. unfold cli_known, cli_allowed, has_segment, reads. destruct (cplace_of p) as [s|s|]; cbn [at_cplace] in P; intros N.
      + exists "GET". eauto 6.
      + exists "POST". eauto 6.
      + now destruct N. }
  assert (G : garbled "request" p \/ garbled "response" p <-> match cplace_of p with QRequest s | QResponse s => path_param s = None | _ => False end).
  { split.
    - intros [H|H]; pose proof H as (s & _ & U & _).
      + rewrite (cplace_only p (QRequest s) U). now apply (garbled_iff _ _ _ U).
      + rewrite (cplace_only p (QResponse s) U). now apply (garbled_iff _ _ _ U).
    - pose proof (cplace_is p) as P. destruct (cplace_of p) as [s|s|]; cbn [at_cplace] in P; try tauto; intros H; apply (garbled_iff _ _ _ P) in H; auto. }
  assert (R : (exists sid, names_session "response" p sid) <-> match cplace_of p with QResponse s => path_param s <> None | _ => False end).
  { split.
    - intros (sid & H). destruct (names_under _ _ _ H) as (s & U). rewrite (cplace_only p (QResponse s) U). apply (names_iff _ _ _ _ U) in H. congruence.
    - pose proof (cplace_is p) as P. destruct (cplace_of p) as [s|s|]; cbn [at_cplace] in P; try tauto.
      destruct (path_param s) as [sid|] eqn:E; [|congruence]. intros _. exists sid. now apply (names_iff _ _ _ _ P). }
  rewrite A, K, G, R, <- fits_iff. clear A K G R.
  destruct (String.eqb_spec m "OPTIONS") as [->|NO].
  - destruct (cplace_of p) as [s|s|]; change (String.eqb "OPTIONS" "POST") with false; change (is_get "OPTIONS") with false;
      (split; [intros n [= <-]; cbn; auto|]); intuition (try discriminate; try congruence).
  - destruct (cplace_of p) as [s|s|].
    + destruct (is_get m); [destruct (path_param s) as [sd|] eqn:E|]; (split; [intros n; try discriminate; intros [= <-]; cbn; tauto|]); intuition (try discriminate; try congruence).
    + destruct (String.eqb_spec m "POST") as [EP|NP]; [destruct (path_param s) as [sd|] eqn:E; [destruct (oversized q) eqn:O|]|];
        (split; [intros n; try discriminate; intros [= <-]; cbn; tauto|]); intuition (try discriminate; try congruence).
    + (split; [intros n; try discriminate; intros [= <-]; cbn; tauto|]); intuition (try discriminate; try congruence).
Qed.
Example c109_refused_ex :
  cli_dispatch (web_get "OPTIONS" "/x") = CRefuse 200 /\ cli_dispatch (web_get "GET" "/status/x") = CRefuse 404
  /\ cli_dispatch (web_get "GET" "/response/x") = CRefuse 405 /\ cli_dispatch (web_get "GET" "/request/%ff") = CRefuse 400
  /\ exists q, cli_dispatch q = CRefuse 413.
Proof.
  repeat split. exists (web_post "/response/x" (string_of_list_ascii (List.repeat "a"%char (N.to_nat 2097153)))).
  unfold cli_dispatch, web_post, oversized. cbn [hq_method hq_path hq_body String.eqb Ascii.eqb Bool.eqb].
  change (segment "/request/" "/response/x") with (@None string). change (segment "/response/" "/response/x") with (Some "x"). change (path_param "x") with (Some "x"). cbv iota.
  assert (L : forall k, String.length (string_of_list_ascii (List.repeat "a"%char k)) = k) by (induction k as [|k IH]; cbn; congruence).
  rewrite L, N2Nat.id. reflexivity.
Qed.

(* ------------------------------------------------------------ the running program *)
Definition reaching (q : hrequest) (h : creq) : Prop := cli_dispatch q = CTo h.
Definition sent_back_by (q : hrequest) (n : N) : Prop := cli_dispatch q = CRefuse n.
Lemma wire_on q r : on_wire q r (wire q (answer_of r)).
Proof.
  unfold on_wire, wire, bare. exists (answer_of r). split; [destruct r; reflexivity|]. split.
  - intros ->. reflexivity.
  - intros N. apply String.eqb_neq in N. now rewrite N.
Qed.
Definition same_task (x : hrequest * cprog) (y : creq * cprog) : Prop := reaching (fst x) (fst y) /\ snd x = snd y.
Record mirrors_k (x : ksys) (y : csys) : Prop := {
  mk_store : ks_store x = cs_store y;
  mk_display : ks_display x = cs_display y;
  mk_notified : ks_notified x = cs_notified y;
  mk_over : ks_over x = cs_over y;
  mk_tasks : Forall2 same_task (ks_tasks x) (cs_tasks y);
  mk_log : retells reaching sent_back_by (ks_log x) (cs_log y)
}.
Lemma act_events h s p s' p' new : cact h s p s' p' new -> forall e, In e new -> (exists e', e = EvDoes h e') \/ (exists d, e = EvShown h d).
Proof. destruct 1; cbn; intros e [<-|[]] || intros e []; eauto. Qed.
Lemma retells_act q h new l k : reaching q h -> (forall e, In e new -> (exists e', e = EvDoes h e') \/ (exists d, e = EvShown h d)) ->
  retells reaching sent_back_by l k -> retells reaching sent_back_by (map (entry_for q) new ++ l) (new ++ k).
Proof.
  intros R H L. induction new as [|e new IH]; [exact L|]. cbn [map app]. destruct (H e (or_introl eq_refl)) as [(e' & ->)|(d & ->)]; cbn [entry_for];
    constructor; try (now constructor); apply IH; intros; apply H; now right.
Qed.
Lemma forall2_at {A B} (R : A -> B -> Prop) pre x post l : Forall2 R (pre ++ x :: post) l ->
  exists pre' y post', l = (pre' ++ y :: post')%list /\ Forall2 R pre pre' /\ R x y /\ Forall2 R post post'.
Proof.
  intros H. apply Forall2_app_inv_l in H as (pre' & l' & H1 & H2 & ->). inversion H2; subst. exists pre', y, l'0. auto.
Qed.
Lemma k_follow x x' y : kstep x x' -> mirrors_k x y -> exists y', (csteps y y') /\ mirrors_k x' y'.
Proof.
  intros S [M1 M2 M3 M4 M5 M6]. destruct y as [m0 d0 ts0 n0 o0 l0].
  destruct S as [m d ts n l q h D|m d ts n l q code D|m d n m' d' n' pre q h p p' post o l new D A|m d n pre q r post o l|m d n pre q p post o l|m d ts l|m d ts n l];
    cbn [ks_store ks_display ks_tasks ks_notified ks_over ks_log cs_store cs_display cs_tasks cs_notified cs_over cs_log] in *; subst m0 d0 n0 o0.
  - eexists. split; [eapply csteps_snoc; [constructor|apply (cs_start _ _ _ _ _ h)]|].
    split; try reflexivity; cbn [ks_tasks ks_log cs_tasks cs_log]; [constructor; [split; [exact D|reflexivity]|exact M5]|]. constructor; [now constructor|exact M6].
  - eexists. split; [constructor|]. split; try reflexivity; [exact M5|]. cbn [ks_log cs_log]. now constructor.
  - apply forall2_at in M5 as (pre' & [h' p0] & post' & -> & F1 & [R E] & F2). cbn in R, E. subst p0. assert (h' = h) as -> by (unfold reaching in R; congruence).
    eexists. split; [eapply csteps_snoc; [constructor|apply (cs_act _ _ _ _ _ _ _ _ _ _ _ _ _ _ A)]|].
    split; try reflexivity; cbn [ks_tasks ks_log cs_tasks cs_log].
    + apply Forall2_app; [exact F1|]. constructor; [split; [exact D|reflexivity]|exact F2].
    + apply (retells_act _ h); auto. exact (act_events _ _ _ _ _ _ A).
  - apply forall2_at in M5 as (pre' & [h' p0] & post' & -> & F1 & [R E] & F2). cbn in R, E. subst p0.
    eexists. split; [eapply csteps_snoc; [constructor|apply cs_answer]|].
    split; try reflexivity; cbn [ks_tasks ks_log cs_tasks cs_log]; [now apply Forall2_app|]. constructor; [|exact M6]. constructor; [exact R|apply wire_on].
  - apply forall2_at in M5 as (pre' & [h' p0] & post' & -> & F1 & [R E] & F2). cbn in R, E. subst p0.
    eexists. split; [eapply csteps_snoc; [constructor|apply cs_drop]|].
    split; try reflexivity; cbn [ks_tasks ks_log cs_tasks cs_log]; [now apply Forall2_app|exact M6].
  - eexists. split; [eapply csteps_snoc; [constructor|apply cs_complete]|]. split; try reflexivity; [exact M5|]. constructor; [constructor|exact M6].
  - eexists. split; [eapply csteps_snoc; [constructor|apply cs_interrupt]|]. split; try reflexivity; [exact M5|]. constructor; [constructor|exact M6].
Qed.
Lemma csteps_trans x y z : csteps x y -> csteps y z -> csteps x z.
Proof. intros H1 H2. induction H2; [exact H1|]. eapply csteps_snoc; [apply IHcsteps, H1|eassumption]. Qed.
Lemma k_mirrors m x : ksteps (ks_init m) x -> exists y, csteps (cs_init m) y /\ mirrors_k x y.
Proof.
  intros H. remember (ks_init m) as z eqn:E. induction H as [x|x y z H IH S].
  - subst. exists (cs_init m). split; [constructor|]. split; try reflexivity; constructor.
  - destruct (IH E) as (y' & C & M). destruct (k_follow _ _ _ S M) as (z' & C' & M'). exists z'. split; [eapply csteps_trans; eauto|exact M'].
Qed.

(** C109: the server adds nothing to what the handlers do: in every execution the sessions, the display, the notification and
    the end are those of an execution without HTTP, and what happens is the same, apart from requests sent back. *)
Lemma c109_behaves_pf :
  forall (m : store) (x : ksys), ksteps (ks_init m) x ->
    exists y, csteps (cs_init m) y
      /\ ks_store x = cs_store y /\ ks_display x = cs_display y /\ ks_notified x = cs_notified y /\ ks_over x = cs_over y
      /\ retells (fun q h => cli_dispatch q = CTo h) (fun q n => cli_dispatch q = CRefuse n) (ks_log x) (cs_log y).
Proof.
  intros m x H. destruct (k_mirrors m x H) as (y & C & [M1 M2 M3 M4 M5 M6]). exists y. auto 8.
Qed.

(* ------------------------------------------------------------ from the records *)
Lemma retells_at l k : retells reaching sent_back_by l k -> forall later x earlier, l = (later ++ x :: earlier)%list ->
  exists later' earlier', retells reaching sent_back_by earlier earlier'
    /\ (exists e, tells reaching x e /\ k = (later' ++ e :: earlier')%list
        \/ exists q n, x = KFor q (KAnswer (n, CNone)) /\ sent_back_by q n /\ k = (later' ++ earlier')%list).
Proof.
  induction 1 as [|x0 e l k T L IH|q n l k R L IH]; intros later x earlier E.
  - destruct later; discriminate.
  - destruct later as [|y later]; cbn in E; injection E as -> E.
    + subst. exists [], k. split; [exact L|]. exists e. left. auto.
    + destruct (IH _ _ _ E) as (la & ea & Re & e' & H). exists (e :: la), ea. split; [exact Re|]. exists e'. destruct H as [[T' ->]|(q & n & Ex & S & ->)]; [left; auto|right; exists q, n; auto].
  - destruct later as [|y later]; cbn in E; injection E as <- E.
    + subst. exists [], k. split; [exact L|]. exists EvCompleted. right. exists q, n. auto.
    + destruct (IH _ _ _ E) as (la & ea & Re & e' & H). exists la, ea. split; [exact Re|]. exists e'. destruct H as [[T' ->]|(q' & n' & Ex & S & ->)]; [left; auto|right; exists q', n'; auto].
Qed.
Lemma retells_in l k : retells reaching sent_back_by l k -> forall e, In e k -> exists x, In x l /\ tells reaching x e.
Proof.
  induction 1 as [|x0 e l k T L IH|q n l k R L IH]; intros e' I; [destruct I| |].
  - destruct I as [<-|I]; [exists x0; split; [now left|exact T]|]. destruct (IH _ I) as (x & I' & T'). exists x. split; [now right|exact T'].
  - destruct (IH _ I) as (x & I' & T'). exists x. split; [now right|exact T'].
Qed.
Lemma does_in l k h e : retells reaching sent_back_by l k -> In (EvDoes h e) k -> exists q, reaching q h /\ In (KFor q (KDoes e)) l.
Proof. intros R I. destruct (retells_in _ _ R _ I) as (x & I' & T). inversion T; subst. eauto. Qed.
Lemma reaching_response q sid body : reaching q (CResponse sid body) -> hq_method q = "POST" /\ names_session "response" (hq_path q) sid /\ body = hq_body q /\ fits q.
Proof. apply c109_routes_pf. Qed.
Lemma reaching_fetch q sid : reaching q (CFetch sid) -> reads (hq_method q) /\ names_session "request" (hq_path q) sid.
Proof. apply c109_routes_pf. Qed.
Lemma posts_of q h id r : reaching q h -> posts_response id h r -> posts q id r.
Proof.
  intros R (sid & body & -> & _ & U & F). apply reaching_response in R as (M & N & -> & Fi). split; [|auto]. split; [exact M|eauto].
Qed.
Lemma judged_of l k id h r o : retells reaching sent_back_by l k -> validated id k h r o -> exists q, reaching q h /\ judged id l q r o.
Proof. intros R (P & s & I). destruct (does_in _ _ _ _ R I) as (q & Q & I'). exists q. split; [exact Q|]. split; [eapply posts_of; eauto|eauto]. Qed.

(** C109: the program completes only after a response was posted to the response endpoint of its session and validated. *)
Lemma c109_completed_pf
  : forall (url_parse : string -> option url) (public : url) (types : list string) (fresh id : uuid) (m : store) (dest : url)
      (x : ksys) (later earlier : list kentry),
    cli_setup url_parse public types fresh id = (m, Ok dest) -> ksteps (ks_init m) x ->
    ks_log x = (later ++ KCompleted :: earlier)%list ->
    exists q r o, judged id earlier q r o.
Proof.
  intros up public types fresh id m dest x later earlier H X E. destruct (k_mirrors m x X) as (y & C & M). destruct (retells_at _ _ (mk_log _ _ M) _ _ _ E) as (la & ea & Re & e & [[T K]|(q & n & Ex & _)]); [|discriminate].
  inversion T; subst. destruct (c100_completed_pf _ _ _ _ _ _ _ _ _ _ H C K) as (h & r & o & V). destruct (judged_of _ _ _ _ _ _ Re V) as (q & _ & J). eauto.
Qed.

(** C109: whatever the console shows is true of the HTTP requests before: the request was fetched from its endpoint, something was
    posted to a response endpoint, or the verdict is that on a response posted for the session. *)
Lemma c109_truthful_pf
  : forall (url_parse : string -> option url) (public : url) (types : list string) (fresh id : uuid) (m : store) (dest : url)
      (x : ksys) (later earlier : list kentry) (q : hrequest) (d : display),
    cli_setup url_parse public types fresh id = (m, Ok dest) -> ksteps (ks_init m) x ->
    ks_log x = (later ++ KFor q (KShown d) :: earlier)%list ->
    true_on_console id earlier d.
Proof.
  intros up public types fresh id m dest x later earlier q d H X E. destruct (k_mirrors m x X) as (y & C & M). destruct (retells_at _ _ (mk_log _ _ M) _ _ _ E) as (la & ea & Re & e & [[T K]|(q' & n & Ex & _)]); [|discriminate].
  inversion T; subst. match goal with R : reaching q ?h |- _ => pose proof (c100_truthful_pf _ _ _ _ _ _ _ _ _ _ _ _ H C K) as V end.
  destruct d as [| | | |info|reason]; cbn [truthful true_on_console] in *; auto.
  - destruct V as (sid & s & U & I). destruct (does_in _ _ _ _ Re I) as (q' & Q & I'). exists q', s. split; [|exact I']. apply reaching_fetch in Q as (Q1 & Q2). split; [exact Q1|eauto].
  - destruct V as (sid & body & u & U & _ & I). destruct (retells_in _ _ Re _ I) as (x' & I' & T'). inversion T'; subst.
    match goal with Q : reaching ?q' (CResponse sid body) |- _ => apply reaching_response in Q as (Q1 & Q2 & _ & Q3); exists q', u end. split; [|auto]. split; [exact Q1|eauto].
  - destruct V as (h' & t & V & Mem). destruct (judged_of _ _ _ _ _ _ Re V) as (q' & _ & J). eauto.
  - destruct V as (h' & jwe & V). destruct (judged_of _ _ _ _ _ _ Re V) as (q' & _ & J). eauto.
Qed.

(** C109: a JWT is sent only in answer to a GET of the request endpoint of the session, and is the request of that session; a JSON body
    only, with status 200 and empty, in answer to a response posted to its response endpoint, validated and recorded. *)
Lemma c109_answered_pf
  : forall (url_parse : string -> option url) (public : url) (types : list string) (fresh id : uuid) (m : store) (dest : url)
      (x : ksys) (later earlier : list kentry) (q : hrequest) (code : N) (body : content),
    cli_setup url_parse public types fresh id = (m, Ok dest) -> ksteps (ks_init m) x ->
    ks_log x = (later ++ KFor q (KAnswer (code, body)) :: earlier)%list ->
    (forall jwt, body = CJwt jwt -> code = 200%N /\ hq_method q = "GET" /\ fetches "request" q id
                                    /\ exists s, st_get id m = Some s /\ jwt = s_jwt s)
    /\ (forall j, body = CJson j -> code = 200%N /\ j = JObj []
          /\ exists r o, posts q id r
             /\ (exists q', judged id earlier q' r o) /\ exists q', posts q' id r /\ In (KFor q' (KDoes (EvUpdate id (Complete o) (Ok tt)))) earlier).
Proof.
  intros up public types fresh id m dest x later earlier q code body H X E. destruct (k_mirrors m x X) as (y & C & M). destruct (retells_at _ _ (mk_log _ _ M) _ _ _ E) as (la & ea & Re & e & [[T K]|(q' & n & Ex & _)]).
  2: { injection Ex as <- -> ->. split; discriminate. }
  inversion T as [| | |q0 h r a Q W| |]; subst. destruct (c100_answered_pf _ _ _ _ _ _ _ _ _ _ _ _ H C K) as (s & G & Ho). destruct W as (full & Fu & W1 & W2).
  assert (D : {hq_method q = "HEAD"} + {hq_method q <> "HEAD"}) by apply string_dec.
  assert (Fb : forall b, body = b -> b <> CNone -> (code, body) = full /\ hq_method q <> "HEAD").
  { intros b -> Nb. destruct D as [D|D]; [specialize (W1 D); injection W1; congruence|]. split; [now apply W2|exact D]. }
  split.
  - intros jwt Eb. destruct (Fb _ Eb) as [Ef Nh]; [discriminate|]. rewrite Eb in Ef. clear W1 W2 Fb. destruct r as [st j|t|st]; rewrite Fu in Ef; try discriminate. injection Ef as -> ->. cbn [honest] in Ho.
    destruct Ho as (-> & sid & -> & U). apply reaching_fetch in Q as (Q1 & Q2). split; [reflexivity|]. split; [destruct Q1; [assumption|contradiction]|]. split; [split; [exact Q1|eauto]|eauto].
  - intros j Eb. destruct (Fb _ Eb) as [Ef Nh]; [discriminate|]. rewrite Eb in Ef. clear W1 W2 Fb. destruct r as [st j'|t|st]; rewrite Fu in Ef; try discriminate. injection Ef as -> ->. cbn [honest] in Ho.
    destruct Ho as (-> & -> & r & o & V & I). split; [reflexivity|]. split; [reflexivity|]. exists r, o. split; [eapply posts_of; [exact Q|apply V]|].
    destruct (judged_of _ _ _ _ _ _ Re V) as (q1 & _ & J). destruct (does_in _ _ _ _ Re I) as (q2 & Q2 & I2). split; [eauto|]. exists q2. split; [eapply posts_of; [exact Q2|apply V]|exact I2].
Qed.

(* ------------------------------------------------------------ the endpoints *)
(** C109: wherever the verifier is (whatever its public URL), the request URI and the response URI that it puts into requests are served: fetching
    the one leads to the handler of requests for this session, posting to the other to that of responses. *)
Lemma c109_links_pf
  : forall (url_parse : string -> option url) (public : url) (types : list string) (fresh id : uuid) (m : store) (dest : url),
    cli_setup url_parse public types fresh id = (m, Ok dest) ->
    exists sess base response request endpoint,
      st_get id m = Some sess /\ text_at "response_uri" (aro_to_obj (s_request sess)) (url_str response)
      /\ to_url (mk_ar (Some ("redirect_uri:" +:+ url_str base)) (ByReference request)) endpoint = Ok dest
      /\ (forall q, hq_path q = u_path request -> reads (hq_method q) -> cli_dispatch q = CTo (CFetch (uuid_str id)))
      /\ (forall q, hq_path q = u_path response -> hq_method q = "POST" -> fits q -> cli_dispatch q = CTo (CResponse (uuid_str id) (hq_body q))).
Proof.
  intros up public types fresh id m dest H.
  destruct (c80_setup_pf _ _ _ _ _ _ _ H) as (q & sess & base & response & base' & request & wallet & endpoint & _ & Eb & Er & Eb' & Er' & G & _ & _ & _ & As & _ & _ & _ & To).
  exists sess, base, response, request, endpoint. split; [exact G|].
  split.
  { destruct As as (f & (_ & As) & _). unfold text_at. apply As. cbn [In]. auto 8. }
  split; [exact To|].
  assert (P : forall b r e, SpecCli.endpoint_at public ("/" +:+ e) b -> 0 < String.length e -> extended b (uuid_str id) r -> names_session e (u_path r) (uuid_str id)).
  { intros b r e (Pb & _) Le (_ & _ & _ & _ & _ & _ & Pr). rewrite Pb in Pr.
    assert (L : Nat.eqb (String.length ("/" +:+ e)) 1 = false) by (apply Nat.eqb_neq; cbn; lia). rewrite L in Pr.
    assert (U : under e (u_path r) (uuid_str id)).
    { split; [rewrite Pr; now rewrite ?sapp_assoc|]. split; [|apply plain_without, plain_uuid]. unfold uuid_str. cbn [hex_digits].
      intros Ez. apply (f_equal String.length) in Ez. rewrite !append_len in Ez. cbn in Ez. lia. }
    assert (Ut : exists l, utf8 (uuid_str id) l) by (apply utf8_iff, Utf8Facts.utf8_ascii, uuid_ascii). destruct Ut as (l & Ut).
    exists (uuid_str id), l. split; [exact U|]. split; [apply plain_unpercent, plain_uuid|exact Ut]. }
  split.
  - intros qq Ep M. apply (proj1 (c109_routes_pf qq)). split; [exact M|]. rewrite Ep. apply (P base' request "request"); auto. cbn. lia.
  - intros qq Ep M F. apply (proj2 (c109_routes_pf qq)). split; [exact M|]. split; [|auto]. rewrite Ep. apply (P base response "response"); auto. cbn. lia.
Qed.
Example c109_links_ex : exists dest, cli_setup simple_parse (toy_url "https://v.example/") ["ldp_vc"] 1%N 7%N = (fst cli_toy, Ok dest).
Proof. exact toy_starts. Qed.

(** An execution without HTTP with one request is one with HTTP. *)
Definition lifted (q : hrequest) (y : csys) : ksys :=
  mk_ksys (cs_store y) (cs_display y) (map (fun t => (q, snd t)) (cs_tasks y)) (cs_notified y) (cs_over y) (map (entry_for q) (cs_log y)).
Lemma lift_steps q h m y : reaching q h -> csteps (cs_init m) y -> (forall h', In (EvArrived h') (cs_log y) -> h' = h) ->
  Forall (fun t => fst t = h) (cs_tasks y) /\ ksteps (ks_init m) (lifted q y).
Proof.
  intros R X. remember (cs_init m) as z eqn:Ez. induction X as [x|x y z X IH S]; intros A.
  - subst x. split; [constructor|]. apply ksteps_refl.
  - assert (Ay : forall h', In (EvArrived h') (cs_log y) -> h' = h).
    { intros h' I. apply A. destruct S; cbn [cs_log] in *; try (now right); auto. apply in_or_app. now right. }
    destruct (IH Ez Ay) as (F & K). clear IH Ay.
    destruct S as [m0 d ts n l h0|m0 d n m' d' n' pre h0 p p' post o l new C|m0 d n pre h0 r post o l|m0 d n pre h0 p post o l|m0 d ts l|m0 d ts n l]; cbn [cs_tasks cs_log] in *.
    + assert (h0 = h) as -> by (apply A; now left). split; [now constructor|]. eapply ksteps_snoc; [exact K|]. now apply k_start.
    + apply Forall_app in F as [F1 F2]. apply Forall_cons_iff in F2 as [E F3]. cbn [fst] in E. subst h0. split; [apply Forall_app; split; [exact F1|now constructor]|].
      eapply ksteps_snoc; [exact K|]. unfold lifted. cbn [cs_store cs_display cs_tasks cs_notified cs_over cs_log]. rewrite !map_app. cbn [map snd]. eapply k_act; eassumption.
    + apply Forall_app in F as [F1 F2]. apply Forall_cons_iff in F2 as [_ F3]. split; [now apply Forall_app|]. eapply ksteps_snoc; [exact K|]. unfold lifted.
      cbn [cs_store cs_display cs_tasks cs_notified cs_over cs_log]. rewrite !map_app. cbn [map snd]. apply k_answer.
    + apply Forall_app in F as [F1 F2]. apply Forall_cons_iff in F2 as [_ F3]. split; [now apply Forall_app|]. eapply ksteps_snoc; [exact K|]. unfold lifted.
      cbn [cs_store cs_display cs_tasks cs_notified cs_over cs_log]. rewrite !map_app. cbn [map snd]. apply k_drop.
    + split; [exact F|]. eapply ksteps_snoc; [exact K|]. constructor.
    + split; [exact F|]. eapply ksteps_snoc; [exact K|]. constructor.
Qed.
Lemma in_arrivals h' l : In (EvArrived h') l -> In h' (arrivals l).
Proof. intros I. apply in_flat_map. exists (EvArrived h'). split; [now apply -> in_rev|now left]. Qed.
Lemma answers_in h a l : In (h, a) (answers l) -> In (EvAnswered h a) l.
Proof. intros I. apply in_flat_map in I as (e & I & J). apply in_rev in I. destruct e; cbn in J; try tauto. destruct J as [[= <- <-]|[]]. exact I. Qed.
(** Fetching the request. *)
Lemma fetching m id sid s : uuid_of_string sid = Some id -> st_get id m = Some s -> exists y, let h := CFetch sid in csteps (cs_init m) y /\ arrivals (cs_log y) = [h]
  /\ answers (cs_log y) = [(h, RJwt (s_jwt s))] /\ shown (cs_log y) = [DFetched] /\ (forall e, In e (cs_log y) -> ~ ends e).
Proof.
  intros U G. assert (X : csteps (cs_init m) (cs_init m)) by constructor. unfold cs_init in X at 2. apply (arrive _ _ _ _ _ _ (CFetch sid)) in X.
  unfold chandler in X. rewrite U in X. unfold retrieve_code in X. cbn [within] in X. eapply act_first in X; [|apply (c_get _ _ _ _ _ _ false)].
  unfold get_session in X. rewrite G in X. cbn [ok_or within] in X. destruct (status_lt (s_status s) SentRequest); cbn [within] in X.
  - eapply act_first in X; [|apply (c_update _ _ _ _ _ _ _ false); unfold update_status; rewrite G; reflexivity]. cbn [within rmap] in X.
    eapply act_first in X; [|apply c_set]. eapply act_first in X; [|apply c_read]. eapply act_first in X; [|apply c_show]. apply answer_first in X.
    eexists. split; [exact X|]. repeat (split; [reflexivity|]). cbn [cs_log app In]. intros e I [->| ->]; intuition discriminate.
  - eapply act_first in X; [|apply c_set]. eapply act_first in X; [|apply c_read]. eapply act_first in X; [|apply c_show]. apply answer_first in X.
    eexists. split; [exact X|]. repeat (split; [reflexivity|]). cbn [cs_log app In]. intros e I [->| ->]; intuition discriminate.
Qed.

(** C109: the server works: a GET of the request URI can be answered with the request of the session, and a response posted to the
    response URI can be answered with success and complete the program. *)
Lemma c109_served_pf
  : forall (m : store) (id : uuid) (s : session) (q : hrequest), st_get id m = Some s ->
    (hq_method q = "GET" -> fetches "request" q id ->
       exists x, ksteps (ks_init m) x /\ In (KFor q (KAnswer (200%N, CJwt (s_jwt s)))) (ks_log x))
    /\ (forall r, posts q id r -> utf8_valid (hq_body q) = true ->
       exists x, ksteps (ks_init m) x /\ In (KFor q (KAnswer (200%N, CJson (JObj [])))) (ks_log x) /\ In KCompleted (ks_log x)).
Proof.
  intros m id s q G. split.
  - intros M (Rd & sid & N & U). assert (D : cli_dispatch q = CTo (CFetch sid)) by (apply c109_routes_pf; auto). destruct (fetching m id sid s U G) as (y & X & Ar & An & _). destruct (lift_steps q _ m y D X) as (_ & K).
    { intros h' I. apply in_arrivals in I. rewrite Ar in I. destruct I as [<-|[]]. reflexivity. }
    exists (lifted q y). split; [exact K|]. unfold lifted. cbn [ks_log]. apply in_map_iff. exists (EvAnswered (CFetch sid) (RJwt (s_jwt s))).
    split; [cbn [entry_for answer_of]; unfold wire; rewrite M; reflexivity|]. apply answers_in. rewrite An. now left.
  - intros r ((M & sid & N & U) & F & Fo) V. assert (D : cli_dispatch q = CTo (CResponse sid (hq_body q))) by (apply c109_routes_pf; auto).
    destruct (c100_possible_pf m (CResponse sid (hq_body q)) id r s) as (y & X & Ar & An & Co); [exists sid, (hq_body q); auto|exact G|].
    destruct (lift_steps q _ m y D X) as (_ & K). { intros h' I. apply in_arrivals in I. rewrite Ar in I. destruct I as [<-|[]]. reflexivity. }
    exists (lifted q y). split; [exact K|]. unfold lifted. cbn [ks_log]. split.
    + apply in_map_iff. exists (EvAnswered (CResponse sid (hq_body q)) (RJson 200 (JObj []))). split; [cbn [entry_for answer_of]; unfold wire; rewrite M; reflexivity|]. apply answers_in. rewrite An. now left.
    + apply in_map_iff. exists EvCompleted. auto.
Qed.
Example c109_served_ex : exists m s q q' r, st_get 7%N m = Some s /\ hq_method q = "GET" /\ fetches "request" q 7%N
  /\ posts q' 7%N r /\ utf8_valid (hq_body q') = true.
Proof.
  destruct toy_stored as (s & G & _). exists (fst cli_toy), s, (web_get "GET" ("/request/" +:+ uuid_str 7%N)), (web_post ("/response/" +:+ uuid_str 7%N) "vp_token={}"), toy_response.
  split; [exact G|]. split; [reflexivity|]. split.
  { split; [now left|]. exists (uuid_str 7%N). split; [|reflexivity].
    assert (D : reaching (web_get "GET" ("/request/" +:+ uuid_str 7%N)) (CFetch (uuid_str 7%N))) by reflexivity. now apply reaching_fetch in D. }
  split; [|reflexivity].
  apply (posts_of _ toy_post); [reflexivity|apply toy_posts].
Qed.
Lemma toy_served : exists dest x, cli_setup simple_parse (toy_url "https://v.example/") ["ldp_vc"] 1%N 7%N = (fst cli_toy, Ok dest) /\ ksteps (ks_init (fst cli_toy)) x
  /\ exists q a, In (KFor q (KAnswer a)) (ks_log x) /\ In KCompleted (ks_log x).
Proof.
  destruct toy_starts as (dest & St). destruct c109_served_ex as (m & s & _ & q' & r & _). destruct toy_stored as (s' & G & _).
  destruct (c109_served_pf (fst cli_toy) 7%N s' (web_post ("/response/" +:+ uuid_str 7%N) "vp_token={}") G) as (_ & P).
  destruct (P toy_response) as (x & X & I & C); [apply (posts_of _ toy_post); [reflexivity|apply toy_posts]|reflexivity|]. exists dest, x. eauto 8.
Qed.
Example c109_completed_ex : exists dest x later earlier, cli_setup simple_parse (toy_url "https://v.example/") ["ldp_vc"] 1%N 7%N = (fst cli_toy, Ok dest)
  /\ ksteps (ks_init (fst cli_toy)) x /\ ks_log x = (later ++ KCompleted :: earlier)%list.
Proof. destruct toy_served as (dest & x & S & X & _ & _ & _ & I). apply in_split in I as (la & ea & E). exists dest, x, la, ea. auto. Qed.
Example c109_answered_ex : exists dest x later earlier q a, cli_setup simple_parse (toy_url "https://v.example/") ["ldp_vc"] 1%N 7%N = (fst cli_toy, Ok dest)
  /\ ksteps (ks_init (fst cli_toy)) x /\ ks_log x = (later ++ KFor q (KAnswer a) :: earlier)%list.
Proof. destruct toy_served as (dest & x & S & X & q & a & I & _). apply in_split in I as (la & ea & E). exists dest, x, la, ea, q, a. auto. Qed.
Lemma toy_fetched (method : string) (Hm : reads method) : let q := web_get method ("/request/" +:+ uuid_str 7%N) in
  exists dest x s, cli_setup simple_parse (toy_url "https://v.example/") ["ldp_vc"] 1%N 7%N = (fst cli_toy, Ok dest) /\ ksteps (ks_init (fst cli_toy)) x
  /\ In (KFor q (KShown DFetched)) (ks_log x) /\ forall q' a, In (KFor q' (KAnswer a)) (ks_log x) -> q' = q /\ a = wire q (200%N, CJwt (s_jwt s)).
Proof.
  intros q. destruct toy_starts as (dest & St). destruct toy_stored as (s & G & _). generalize dependent (fst cli_toy). intros m St G.
  destruct (fetching m 7%N (uuid_str 7%N) s eq_refl G) as (y & X & Ar & An & Sh & _). assert (D : reaching q (CFetch (uuid_str 7%N))) by (destruct Hm as [->| ->]; reflexivity).
  destruct (lift_steps q _ m y D X) as (_ & K). { intros h' I. apply in_arrivals in I. rewrite Ar in I. destruct I as [<-|[]]. reflexivity. }
  exists dest, (lifted q y), s. split; [exact St|]. split; [exact K|]. unfold lifted. cbn [ks_log]. split.
  - assert (I : In DFetched (shown (cs_log y))) by (rewrite Sh; now left). apply in_flat_map in I as (e & I & J). apply in_rev in I. destruct e as [| |h d| | |]; cbn in J; try tauto.
    destruct J as [->|[]]. apply in_map_iff. exists (EvShown h DFetched). auto.
  - intros q' a I. apply in_map_iff in I as (e & E & I). destruct e as [h|h e|h d|h r| |]; cbn [entry_for] in E; try discriminate.
    injection E as <- <-. split; [reflexivity|]. assert (J : In (h, r) (answers (cs_log y))) by (apply in_flat_map; exists (EvAnswered h r); split; [now apply -> in_rev|now left]).
    rewrite An in J. destruct J as [[= <- <-]|[]]. reflexivity.
Qed.
Example c109_truthful_ex : exists dest x later earlier q d, cli_setup simple_parse (toy_url "https://v.example/") ["ldp_vc"] 1%N 7%N = (fst cli_toy, Ok dest)
  /\ ksteps (ks_init (fst cli_toy)) x /\ ks_log x = (later ++ KFor q (KShown d) :: earlier)%list.
Proof. destruct (toy_fetched "GET" (or_introl eq_refl)) as (dest & x & s & S & X & I & _). apply in_split in I as (la & ea & E). exists dest, x, la, ea. eauto. Qed.
Example c109_behaves_ex : exists dest x, cli_setup simple_parse (toy_url "https://v.example/") ["ldp_vc"] 1%N 7%N = (fst cli_toy, Ok dest)
  /\ ksteps (ks_init (fst cli_toy)) x /\ In KCompleted (ks_log x).
Proof. destruct toy_served as (dest & x & S & X & _ & _ & _ & I). eauto. Qed.

(** C109, refuted: that when the console says that the request was fetched, it has been sent to somebody: a HEAD request
    suffices. *)
Lemma c109_head_refuted_pf
  : exists (url_parse : string -> option url) (public : url) (types : list string) (fresh id : uuid) (m : store) (dest : url) (x : ksys) (q : hrequest),
    cli_setup url_parse public types fresh id = (m, Ok dest) /\ ksteps (ks_init m) x
    /\ In (KFor q (KShown DFetched)) (ks_log x)
    /\ forall q' code body, In (KFor q' (KAnswer (code, body))) (ks_log x) -> body = CNone.
Proof.
  destruct (toy_fetched "HEAD" (or_intror eq_refl)) as (dest & x & s & S & X & I & A).
  exists simple_parse, (toy_url "https://v.example/"), ["ldp_vc"], 1%N, 7%N, (fst cli_toy), dest, x. eexists. split; [exact S|]. split; [exact X|]. split; [exact I|].
  intros q' code body J. apply A in J as [_ J]. unfold wire in J. cbn [web_get hq_method] in J. change (String.eqb "HEAD" "HEAD") with true in J. injection J as _ ->. reflexivity.
Qed.
