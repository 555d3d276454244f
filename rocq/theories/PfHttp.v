From Coq Require Import Lia.
From Verif Require Import Base BaseFacts Utf8 Json JsonFacts JsonText Base64 Base64Facts Serde Url UrlEncoded Object Formats Params
  Metadata Dcql Effects Jwt Request Response Jwe ExMatcher ExWallet ExMetadata ExHttp SpecRequest PfRequest PfResolve SpecDcql PfDcql
  SpecResponse SpecExample PfExample SpecHttp.

(* ------------------------------------------------------------ parameters *)
Lemma once_ok k l x : once k l = Ok x <-> values k l = match x with Some v => [v] | None => [] end.
Proof.
  unfold once, values. destruct (filter _ l) as [|[a b] [|[c d] r]]; cbn [map snd].
  - destruct x; split; congruence.
  - destruct x; split; try congruence; intros H; injection H as <-; reflexivity.
  - destruct x; split; congruence.
Qed.
Lemma once_err k l e : once k l = Err e -> exists v1 v2 r, values k l = v1 :: v2 :: r.
Proof. unfold once, values. destruct (filter _ l) as [|[a b] [|[c d] r]]; try discriminate. intros _. cbn [map snd]. eauto. Qed.

(** C102: the parameters are read exactly from the forms in which each known name occurs at most once, with the values
    given there. *)
Lemma c102_params_pf :
  forall (text : string) (p : params), read_params text = Ok p <-> gives text p.
Proof.
  intros text p. unfold read_params. split.
  - intros H. repeat (apply rbind_ok in H as (? & ?E & H)). injection H as <-. intros k f I.
    repeat (destruct I as [I|I]; [injection I as <- <-; now apply once_ok|]). destruct I.
  - intros H. assert (X : forall k f, In (k, f) parameters -> once k (form_parse text) = Ok (f p)).
    { intros k f I. apply once_ok. now apply H. }
    rewrite (X "client_id" pa_client_id) by (cbn; tauto). cbn [rbind].
    rewrite (X "request" pa_request) by (cbn; tauto). cbn [rbind].
    rewrite (X "request_uri" pa_request_uri) by (cbn; tauto). cbn [rbind].
    rewrite (X "response_type" pa_response_type) by (cbn; tauto). cbn [rbind].
    rewrite (X "nonce" pa_nonce) by (cbn; tauto). cbn [rbind].
    rewrite (X "state" pa_state) by (cbn; tauto). cbn [rbind].
    rewrite (X "response_mode" pa_response_mode) by (cbn; tauto). cbn [rbind].
    rewrite (X "response_uri" pa_response_uri) by (cbn; tauto). cbn [rbind].
    rewrite (X "dcql_query" pa_dcql_query) by (cbn; tauto). cbn [rbind]. now destruct p.
Qed.
Example c102_params_ex :
  read_params "state=a%20b&other=1&other=2&nonce=&request_uri=https%3A%2F%2Fv.example%2Fr"
  = Ok (mk_params None None (Some "https://v.example/r") None (Some "") (Some "a b") None None None)
  /\ read_params "state=a&state=a" = Err "duplicate field".
Proof. split; vm_compute; reflexivity. Qed.

Lemma repeats_err text : (exists e, read_params text = Err e) <-> repeats text.
Proof.
  split.
  - intros (e & H). unfold read_params in H.
    repeat match type of H with
    | rbind (once ?k ?l) _ = _ => let E := fresh "E" in destruct (once k l) eqn:E; cbn [rbind] in H;
        [|apply once_err in E as (v1 & v2 & r & E);
          match type of E with values ?k _ = _ =>
            assert (F : exists f, In (k, f) parameters) by (eexists; cbn; tauto); destruct F as (f & F); now exists k, f, v1, v2, r end]
    end. discriminate.
  - intros (k & f & v1 & v2 & r & I & E). destruct (read_params text) as [p|e] eqn:R; [|eauto].
    apply c102_params_pf in R. specialize (R _ _ I). rewrite E in R. destruct (f p); discriminate.
Qed.

(* ------------------------------------------------------------ the endpoint *)
Section Endpoint.
Variable up : string -> option url.
Variable ssi : obj -> option bool.
Variable uok : string -> bool.
Variable jok : obj -> bool.
Variable enc : obj -> obj -> obj -> res string.
Variable lower sign : string -> string.
Variable now : Z.
Variable http : http_client.
Variable ep : url.
Variable store : list credential.
Variable consent : bool.
Variable describe : string -> string.
Variable reason : N -> string.
Local Notation run p := (authorize up ssi uok jok enc lower sign now http ep store consent p).
Local Notation proc p := (process up ssi uok jok enc lower sign now http ep store consent describe reason p).

Lemma error_is s c d st : error_page c st (error_reply s c d st).
Proof.
  unfold error_page, error_reply. cbn [hr_json]. eexists. exists d. split; [reflexivity|].
  destruct st as [st|]; cbn; (split; [reflexivity|]; split; [reflexivity|]; split; [reflexivity|]); intros k;
    cbn [obj_get app];
    repeat match goal with |- context [String.eqb ?x ?y] => destruct (String.eqb_spec x y); [subst; auto|] end; congruence.
Qed.
Lemma success_is x : success_page x (success_reply x).
Proof.
  unfold success_page, success_reply. cbn [hr_json hr_status]. split; [reflexivity|]. eexists. split; [reflexivity|].
  destruct x as [x|]; cbn; (split; [reflexivity|]); intros k; cbn [obj_get app]; [|congruence].
  destruct (String.eqb_spec k "redirect_uri"); congruence.
Qed.

(** What a submission answers. *)
Lemma submit_deliver u body st :
  let s := submit up http describe reason u body st in
  fst s = fst (deliver up http u body)
  /\ match http (plain_post u body) with
     | Ok rs => if is_success (rs_status rs) then exists x, snd (deliver up http u body) = Ok x /\ snd s = success_reply x
                else (exists e, snd (deliver up http u body) = Err e)
                     /\ hr_status (snd s) = 502%N /\ error_page "verifier_error" st (snd s)
     | Err _ => (exists e, snd (deliver up http u body) = Err e)
                /\ hr_status (snd s) = 502%N /\ error_page "submission_failed" st (snd s)
     end.
Proof.
  unfold submit, deliver, send. cbn zeta. unfold mbind, emit, lift, ret. cbn [fst snd app].
  destruct (http (plain_post u body)) as [rs|e]; cbn [fst snd app].
  2:{ split; [reflexivity|]. split; [eauto|]. split; [reflexivity|apply error_is]. }
  destruct (is_success (rs_status rs)); cbn [of_bool fst snd app].
  2:{ split; [reflexivity|]. split; [eauto|]. split; [reflexivity|apply error_is]. }
  destruct (match json_of_text _ with Some (JObj m) => _ | _ => None end) as [x|].
  - destruct (up x); cbn [fst snd app]; (split; [reflexivity|eexists; split; reflexivity]).
  - split; [reflexivity|eexists; split; reflexivity].
Qed.

(** Every way the endpoint can end. *)
Definition early (p : params) : Prop :=
  exists s c, In (s, c) early_errors /\ hr_status (snd (proc p)) = s /\ error_page c (pa_state p) (snd (proc p))
    /\ posts (http_events (fst (proc p))) = [] /\ exists e, snd (run p) = Err e.
Definition late (p : params) (a : aro) : Prop :=
  (exists s c, In (s, c) [(400, "invalid_client_metadata"); (500, "encryption_error")]%N
     /\ hr_status (snd (proc p)) = s /\ error_page c (echoed a (pa_state p)) (snd (proc p))
     /\ posts (http_events (fst (proc p))) = [] /\ exists e, snd (run p) = Err e)
  \/ exists r, posts (http_events (fst (proc p))) = [r]
     /\ match http r with
        | Ok rs => if is_success (rs_status rs) then exists x, snd (run p) = Ok x /\ snd (proc p) = success_reply x
                   else (exists e, snd (run p) = Err e)
                        /\ hr_status (snd (proc p)) = 502%N /\ error_page "verifier_error" (echoed a (pa_state p)) (snd (proc p))
        | Err _ => (exists e, snd (run p) = Err e)
                   /\ hr_status (snd (proc p)) = 502%N /\ error_page "submission_failed" (echoed a (pa_state p)) (snd (proc p))
        end.
Lemma cases p :
  fst (proc p) = fst (run p)
  /\ (early p \/ exists ar a jwt, from_url up (build_request_url ep p) ep = Ok ar
                 /\ snd (resolve_request up ssi uok http ar) = Ok (a, jwt) /\ late p a).
Proof.
  unfold early, late, process, authorize. rewrite lift_bind.
  Ltac early_case I := split; [cbn [fst lift]; try rewrite app_nil_r; reflexivity|]; left; eexists; eexists; split; [apply I|];
    split; [reflexivity|]; split; [apply error_is|]; split; [try assumption; reflexivity|eexists; reflexivity].
  assert (I1 : In (400%N, "invalid_request") early_errors) by (cbn; tauto).
  assert (I2 : In (400%N, "access_denied") early_errors) by (cbn; tauto).
  assert (I3 : In (400%N, "unsupported_response_mode") early_errors) by (cbn; tauto).
  destruct (from_url up (build_request_url ep p) ep) as [ar|e] eqn:Ef; [|early_case I1].
  cbn zeta. pose proof (posts_resolve up ssi uok http ar) as P.
  destruct (resolve_request up ssi uok http ar) as [t r] eqn:Er. cbn [fst snd] in P |- *.
  destruct r as [[a jwt]|e]; [|early_case I1].
  assert (B : forall (A : Type) (f : aro * option string -> M wevent A), mbind (t, Ok (a, jwt)) f = (t ++ fst (f (a, jwt)), snd (f (a, jwt)))) by reflexivity.
  rewrite B. clear B. cbn iota beta. rewrite lift_bind.
  destruct (aro_dcql a) as [[d|e]|]; cbn [context]; [|early_case I1|early_case I1].
  rewrite lift_bind. destruct (process_request lower store consent a) as [sel|e]; [|early_case I2].
  rewrite lift_bind. destruct (redirect_uri_bound a); cbn [of_bool]; [|early_case I1].
  set (vp := build_vp_token _ _ _ _ _). fold (echoed a (pa_state p)).
  assert (S : forall body,
    posts (http_events (t ++ fst (submit up http describe reason (ro_return a) body (echoed a (pa_state p))))) = [plain_post (ro_return a) body]).
  { intros body. destruct (submit_deliver (ro_return a) body (echoed a (pa_state p))) as [-> _].
    now rewrite http_app, posts_app, P, posts_deliver. }
  destruct (ro_mode a) as [| | | |m]; [| |early_case I3|early_case I3|early_case I3].
  - unfold submit_direct_post. cbn [fst snd]. set (body := unencoded_form _).
    destruct (submit_deliver (ro_return a) body (echoed a (pa_state p))) as [F R]. split; [now rewrite F|]. right.
    exists ar, a, jwt. split; [reflexivity|]. split; [now rewrite Er|]. right. exists (plain_post (ro_return a) body).
    split; [apply S|exact R].
  - unfold submit_direct_post_jwt. rewrite lift_bind. unfold encrypted_answer.
    destruct (verifier_key jok a) as [info|e]; cbn [rbind].
    2:{ cbn [fst snd]. rewrite !app_nil_r. split; [reflexivity|]. right. exists ar, a, jwt. split; [reflexivity|]. split; [now rewrite Er|]. left.
        do 2 eexists. split; [now left|]. split; [reflexivity|]. split; [apply error_is|]. split; [exact P|eexists; reflexivity]. }
    set (b := jb_set_alg _ _). cbn zeta. set (b' := match ki_kid info with Some _ => _ | None => _ end).
    destruct (let? b0 := jb_set_key_json jok (JObj (ki_jwk info)) b' in jwe_build enc b0) as [jwe|e].
    2:{ cbn [fst snd]. rewrite !app_nil_r. split; [reflexivity|]. right. exists ar, a, jwt. split; [reflexivity|]. split; [now rewrite Er|]. left.
        do 2 eexists. split; [right; now left|]. split; [reflexivity|]. split; [apply error_is|]. split; [exact P|eexists; reflexivity]. }
    cbn [fst snd]. set (body := form_serialize _).
    destruct (submit_deliver (ro_return a) body (echoed a (pa_state p))) as [F R]. split; [now rewrite F|]. right.
    exists ar, a, jwt. split; [reflexivity|]. split; [now rewrite Er|]. right. exists (plain_post (ro_return a) body).
    split; [apply S|exact R].
Qed.
End Endpoint.

Lemma page_code c c' st st' r : error_page c st r -> error_page c' st' r -> c = c' /\ st = st'.
Proof.
  intros (o & d & J & E & _ & S & _) (o' & d' & J' & E' & _ & S' & _). rewrite J in J'. injection J' as <-.
  unfold text_at, absent in *. split; [congruence|]. destruct st, st'; congruence.
Qed.
Lemma not_error c st x r : success_page x r -> error_page c st r -> False.
Proof.
  intros (_ & o & J & _ & K) (o' & d & J' & E & _). rewrite J in J'. injection J' as <-. unfold text_at in E.
  assert (X : obj_get "error" o <> None) by congruence. apply K in X. discriminate.
Qed.

(** C102: the effects of the endpoint are those of the wallet; a success is answered by 200 and the redirect, everything
    else by one of seven codes with its status. *)
Lemma c102_outcome_pf :
  forall (url_parse : string -> option url) (ssi_header : obj -> option bool) (uri_ok : string -> bool)
    (jwk_ok : obj -> bool) (jwe_encrypt : obj -> obj -> obj -> res string) (lower sign : string -> string) (now : Z)
    (http : http_client) (endpoint : url) (store : list credential) (auto_consent : bool)
    (describe : string -> string) (reason : N -> string) (p : params),
    let run := authorize url_parse ssi_header uri_ok jwk_ok jwe_encrypt lower sign now http endpoint store auto_consent p in
    let r := process url_parse ssi_header uri_ok jwk_ok jwe_encrypt lower sign now http endpoint store auto_consent describe reason p in
    fst r = fst run
    /\ (forall x, snd run = Ok x -> success_page x (snd r))
    /\ (forall e, snd run = Err e ->
          exists code state, In (hr_status (snd r), code) (early_errors ++ late_errors) /\ error_page code state (snd r)).
Proof.
  intros up ssi uok jok enc lower sign now http ep store consent de re p run r.
  destruct (cases up ssi uok jok enc lower sign now http ep store consent de re p) as [F C]. split; [exact F|].
  fold run r in C. destruct C as [(s & c & I & Es & Ep & _ & e & E)|(ar & a & jwt & _ & _ & L)].
  - unfold early_errors in *. split; [intros x X; fold run in E; congruence|]. intros _ _. exists c, (pa_state p). split; [|exact Ep].
    fold r in Es. rewrite Es. apply in_or_app. now left.
  - unfold late in L. fold run r in L. destruct L as [(s & c & I & Es & Ep & _ & e & E)|(rq & _ & L)].
    + split; [intros x X; fold run in E; congruence|]. intros _ _. exists c, (echoed a (pa_state p)). split; [|exact Ep].
      fold r in Es. rewrite Es. apply in_or_app. right. destruct I as [I|[I|[]]]; injection I as <- <-; cbn; tauto.
    + destruct (http rq) as [rs|e].
      * destruct (is_success (rs_status rs)).
        -- destruct L as (x & Ex & Er). fold run in Ex. fold r in Er. rewrite Ex, Er. split; [intros y [= <-]; apply success_is|discriminate].
        -- destruct L as ((e & E) & Es & Ep). split; [intros x X; fold run in E; congruence|]. intros _ _. exists "verifier_error".
           eexists. split; [|exact Ep]. fold r in Es. rewrite Es. cbn; tauto.
      * destruct L as ((e' & E) & Es & Ep). split; [intros x X; fold run in E; congruence|]. intros _ _. exists "submission_failed".
        eexists. split; [|exact Ep]. fold r in Es. rewrite Es. cbn; tauto.
Qed.

(** C102: what the status says about the presentation: 200 if and only if it was posted and accepted; 502 if and only if
    it was posted and refused or not delivered, with the code telling which; 400 and 500 if and only if nothing was
    posted. *)
Lemma c102_sent_pf :
  forall (url_parse : string -> option url) (ssi_header : obj -> option bool) (uri_ok : string -> bool)
    (jwk_ok : obj -> bool) (jwe_encrypt : obj -> obj -> obj -> res string) (lower sign : string -> string) (now : Z)
    (http : http_client) (endpoint : url) (store : list credential) (auto_consent : bool)
    (describe : string -> string) (reason : N -> string) (p : params),
    let r := process url_parse ssi_header uri_ok jwk_ok jwe_encrypt lower sign now http endpoint store auto_consent describe reason p in
    let sent := posts (http_events (fst r)) in
    (hr_status (snd r) = 200%N <-> exists q rs, sent = [q] /\ http q = Ok rs /\ (200 <= rs_status rs < 300)%N)
    /\ ((exists state, error_page "verifier_error" state (snd r))
        <-> exists q rs, sent = [q] /\ http q = Ok rs /\ ~ (200 <= rs_status rs < 300)%N)
    /\ ((exists state, error_page "submission_failed" state (snd r)) <-> exists q e, sent = [q] /\ http q = Err e)
    /\ (hr_status (snd r) = 502%N <->
        exists code state, (code = "verifier_error" \/ code = "submission_failed") /\ error_page code state (snd r))
    /\ (hr_status (snd r) = 400%N \/ hr_status (snd r) = 500%N <-> sent = []).
Proof.
  intros up ssi uok jok enc lower sign now http ep store consent de re p r sent.
  assert (SU : forall n, is_success n = true <-> (200 <= n < 300)%N).
  { intros n. unfold is_success. rewrite andb_true_iff, N.leb_le, N.ltb_lt. tauto. }
  assert (NONE : forall c st, error_page c st (snd r) -> sent = [] ->
     hr_status (snd r) = 400%N \/ hr_status (snd r) = 500%N -> c <> "verifier_error" -> c <> "submission_failed" ->
    (hr_status (snd r) = 200%N <-> exists q rs, sent = [q] /\ http q = Ok rs /\ (200 <= rs_status rs < 300)%N)
    /\ ((exists state, error_page "verifier_error" state (snd r))
        <-> exists q rs, sent = [q] /\ http q = Ok rs /\ ~ (200 <= rs_status rs < 300)%N)
    /\ ((exists state, error_page "submission_failed" state (snd r)) <-> exists q e, sent = [q] /\ http q = Err e)
    /\ (hr_status (snd r) = 502%N <->
        exists code state, (code = "verifier_error" \/ code = "submission_failed") /\ error_page code state (snd r))
    /\ (hr_status (snd r) = 400%N \/ hr_status (snd r) = 500%N <-> sent = [])).
  { intros c st E S H N1 N2. rewrite S.
    split; [split; [intros X; destruct H as [H|H]; rewrite H in X; discriminate X|intros (q & rs & X & _); discriminate X]|].
    split; [split; [intros (s & X); destruct (page_code _ _ _ _ _ E X); congruence|intros (q & rs & X & _); discriminate X]|].
    split; [split; [intros (s & X); destruct (page_code _ _ _ _ _ E X); congruence|intros (q & rs & X & _); discriminate X]|].
    split; [split; [intros X; destruct H as [H|H]; rewrite H in X; discriminate X|]|tauto].
    intros (c' & s & X & Y). destruct (page_code _ _ _ _ _ E Y). destruct X; congruence. }
  destruct (cases up ssi uok jok enc lower sign now http ep store consent de re p) as [_ C]. unfold early, late in C. fold r sent in C.
  destruct C as [(s & c & I & Es & Ep & S & _)|(ar & a & jwt & _ & _ & [(s & c & I & Es & Ep & S & _)|(q & S & L)])].
  - apply (NONE c (pa_state p)); try assumption; cbn in I; destruct I as [I|[I|[I|[]]]]; injection I as <- <-; rewrite ?Es; auto; discriminate.
  - apply (NONE c (echoed a (pa_state p))); try assumption; cbn in I; destruct I as [I|[I|[]]]; injection I as <- <-; rewrite ?Es; auto; discriminate.
  - rewrite S. assert (ONE : forall q', [q] = [q'] -> q' = q) by congruence.
    destruct (http q) as [rs|e] eqn:H; [destruct (is_success (rs_status rs)) eqn:U|].
    + destruct L as (x & _ & R). pose proof (success_is x) as X. rewrite <- R in X. apply SU in U.
      assert (NE : forall c st, ~ error_page c st (snd r)) by (intros c st; exact (not_error _ _ _ _ X)).
      destruct X as [X _]. rewrite X. split; [split; [exists q, rs; auto|reflexivity]|].
      split; [split; [intros (st & Y); destruct (NE _ _ Y)|intros (q' & rs' & Q & Y & N); apply ONE in Q as ->; rewrite H in Y; injection Y as <-; contradiction]|].
      split; [split; [intros (st & Y); destruct (NE _ _ Y)|intros (q' & e & Q & Y); apply ONE in Q as ->; congruence]|].
      split; [split; [discriminate|intros (c & st & _ & Y); destruct (NE _ _ Y)]|].
      split; [intros [Y|Y]; discriminate Y|discriminate].
    + destruct L as (_ & R & E). assert (NU : ~ (200 <= rs_status rs < 300)%N) by (rewrite <- SU; congruence). rewrite R.
      split; [split; [discriminate|intros (q' & rs' & Q & Y & N); apply ONE in Q as ->; rewrite H in Y; injection Y as <-; contradiction]|].
      split; [split; [intros _; exists q, rs; auto|intros _; eauto]|].
      split; [split; [intros (st & Y); destruct (page_code _ _ _ _ _ E Y); congruence|intros (q' & e & Q & Y); apply ONE in Q as ->; congruence]|].
      split; [split; [intros _; do 2 eexists; split; [left; reflexivity|exact E]|reflexivity]|].
      split; [intros [Y|Y]; discriminate Y|discriminate].
    + destruct L as (_ & R & E). rewrite R.
      split; [split; [discriminate|intros (q' & rs' & Q & Y & N); apply ONE in Q as ->; congruence]|].
      split; [split; [intros (st & Y); destruct (page_code _ _ _ _ _ E Y); congruence|intros (q' & rs' & Q & Y & N); apply ONE in Q as ->; congruence]|].
      split; [split; [intros _; exists q, e; auto|intros _; eauto]|].
      split; [split; [intros _; do 2 eexists; split; [right; reflexivity|exact E]|reflexivity]|].
      split; [intros [Y|Y]; discriminate Y|discriminate].
Qed.

(** C102: the state of an error page: the one given with the request for the errors found before an answer is made,
    after that the one of the request object, if it has a readable one. *)
Lemma c102_echo_pf :
  forall (url_parse : string -> option url) (ssi_header : obj -> option bool) (uri_ok : string -> bool)
    (jwk_ok : obj -> bool) (jwe_encrypt : obj -> obj -> obj -> res string) (lower sign : string -> string) (now : Z)
    (http : http_client) (endpoint : url) (store : list credential) (auto_consent : bool)
    (describe : string -> string) (reason : N -> string) (p : params) (code : string) (state : option string),
    error_page code state
      (snd (process url_parse ssi_header uri_ok jwk_ok jwe_encrypt lower sign now http endpoint store auto_consent describe reason p)) ->
    (In code (map snd early_errors) /\ state = pa_state p)
    \/ (In code (map snd late_errors)
        /\ exists ar a jwt, from_url url_parse (build_request_url endpoint p) endpoint = Ok ar
             /\ snd (resolve_request url_parse ssi_header uri_ok http ar) = Ok (a, jwt) /\ state = echoed a (pa_state p)).
Proof.
  intros up ssi uok jok enc lower sign now http ep store consent de re p code state E.
  destruct (cases up ssi uok jok enc lower sign now http ep store consent de re p) as [_ [C|C]].
  - destruct C as (s & c & I & _ & X & _). destruct (page_code _ _ _ _ _ E X) as [-> ->]. left. split; [|reflexivity].
    apply in_map_iff. now exists (s, c).
  - destruct C as (ar & a & jwt & Ef & Er & L). right.
    assert (K : In code (map snd late_errors) /\ state = echoed a (pa_state p)).
    { destruct L as [(s & c & I & _ & X & _)|(q & _ & L)].
      - destruct (page_code _ _ _ _ _ E X) as [-> ->]. split; [|reflexivity]. destruct I as [I|[I|[]]]; injection I as _ <-; cbn; tauto.
      - destruct (http q) as [rs|e]; [destruct (is_success _)|].
        + destruct L as (x & _ & R). rewrite R in E. destruct (not_error _ _ _ _ (success_is x) E).
        + destruct L as (_ & _ & X). destruct (page_code _ _ _ _ _ E X) as [-> ->]. cbn; tauto.
        + destruct L as (_ & _ & X). destruct (page_code _ _ _ _ _ E X) as [-> ->]. cbn; tauto. }
    split; [apply K|]. exists ar, a, jwt. tauto.
Qed.

Lemma dcql_nonempty a d : aro_dcql a = Some (Ok d) -> dq_credentials d <> [].
Proof.
  unfold aro_dcql, aro_get, uo_get. destruct (obj_get (tp_key p_dcql) (ro_inner a)) as [j|]; [|discriminate]. intros H. injection H as H.
  apply c56_parsed_pf in H as [[[N _] _] _]. exact N.
Qed.
Lemma engine_iff lower store consent a d : aro_dcql a = Some (Ok d) ->
  ((exists sel, process_request lower store consent a = Ok sel) <-> consent = true /\ answerable lower store d).
Proof.
  intros Ed. unfold process_request. rewrite Ed. cbn [context rbind]. destruct consent; cbn [of_bool rbind].
  - rewrite c67_complete_pf. split; [intros [_ H]; auto|]. intros [_ H]. split; [now apply (dcql_nonempty a)|exact H].
  - split; [intros (s & H); discriminate|intros [H _]; discriminate].
Qed.
Lemma submit_page up http de re u body st c st' :
  error_page c st' (snd (submit up http de re u body st)) -> c = "verifier_error" \/ c = "submission_failed".
Proof.
  intros E. destruct (submit_deliver up http de re u body st) as [_ R].
  destruct (http (plain_post u body)) as [rs|e]; [destruct (is_success _)|].
  - destruct R as (x & _ & R). rewrite R in E. destruct (not_error _ _ _ _ (success_is x) E).
  - destruct R as (_ & _ & X). destruct (page_code _ _ _ _ _ E X) as [-> _]. auto.
  - destruct R as (_ & _ & X). destruct (page_code _ _ _ _ _ E X) as [-> _]. auto.
Qed.

(** C102: a request is denied exactly if it can be read, with a query, and consent is not given or the credentials do not
    answer the query. *)
Lemma c102_denied_pf :
  forall (url_parse : string -> option url) (ssi_header : obj -> option bool) (uri_ok : string -> bool)
    (jwk_ok : obj -> bool) (jwe_encrypt : obj -> obj -> obj -> res string) (lower sign : string -> string) (now : Z)
    (http : http_client) (endpoint : url) (store : list credential) (auto_consent : bool)
    (describe : string -> string) (reason : N -> string) (p : params),
    (exists state, error_page "access_denied" state
       (snd (process url_parse ssi_header uri_ok jwk_ok jwe_encrypt lower sign now http endpoint store auto_consent describe reason p)))
    <-> exists ar a jwt d, from_url url_parse (build_request_url endpoint p) endpoint = Ok ar
          /\ snd (resolve_request url_parse ssi_header uri_ok http ar) = Ok (a, jwt)
          /\ aro_dcql a = Some (Ok d) /\ ~ (auto_consent = true /\ answerable lower store d).
Proof.
  intros up ssi uok jok enc lower sign now http ep store consent de re p. unfold process.
  assert (X : forall s c d st st', c <> "access_denied" -> ~ error_page "access_denied" st' (error_reply s c d st)).
  { intros s c d st st' N E. destruct (page_code _ _ _ _ _ E (error_is s c d st)); congruence. }
  destruct (from_url up (build_request_url ep p) ep) as [ar|e].
  2:{ split; [intros (st & E); now apply X in E|intros (ar & a & jwt & d & Y & _); discriminate Y]. }
  cbn zeta. destruct (snd (resolve_request up ssi uok http ar)) as [[a jwt]|e] eqn:Er.
  2:{ split; [intros (st & E); now apply X in E|]. intros (ar' & a & jwt & d & Y & Z & _). injection Y as <-. congruence. }
  destruct (aro_dcql a) as [[d|e]|] eqn:Ed.
  2:{ split; [intros (st & E); now apply X in E|]. intros (ar' & a' & jwt' & d & Y & Z & Q & _). injection Y as <-.
      rewrite Er in Z. injection Z as <- <-. congruence. }
  2:{ split; [intros (st & E); now apply X in E|]. intros (ar' & a' & jwt' & d & Y & Z & Q & _). injection Y as <-.
      rewrite Er in Z. injection Z as <- <-. congruence. }
  pose proof (engine_iff lower store consent a d Ed) as EN.
  destruct (process_request lower store consent a) as [sel|e].
  2:{ split; [intros _|intros _; eexists; apply error_is]. exists ar, a, jwt, d. repeat (split; [assumption || reflexivity|]).
      intros K. apply EN in K as (sel & K). discriminate. }
  split.
  - intros (st & E). exfalso. destruct (redirect_uri_bound a); [|now apply X in E].
    destruct (ro_mode a); cbn [snd] in E; try now apply X in E.
    + unfold submit_direct_post in E. destruct (submit_page _ _ _ _ _ _ _ _ _ E); congruence.
    + unfold submit_direct_post_jwt in E. destruct (verifier_key jok a); [|now apply X in E].
      destruct (let? _ := _ in _); [|now apply X in E]. destruct (submit_page _ _ _ _ _ _ _ _ _ E); congruence.
  - intros (ar' & a' & jwt' & d' & Y & Z & Q & N). injection Y as <-. rewrite Er in Z. injection Z as <- <-. rewrite Ed in Q. injection Q as <-.
    destruct N. apply EN. eauto.
Qed.

(* ------------------------------------------------------------ the server *)
Lemma is_form_iff q : is_form (hq_content_type q) = true <-> says_form q.
Proof.
  unfold is_form, says_form. destruct (hq_content_type q) as [t|].
  - rewrite andb_true_iff, starts_with_iff, forallb_forall. split.
    + intros (V & rest & E). exists t, rest. split; [reflexivity|]. split; [exact E|]. intros c I. specialize (V c I).
      unfold visible, in_range in V. apply orb_true_iff in V as [V|V]; [|right; now apply N.eqb_eq].
      apply andb_true_iff in V as [A B]. apply N.leb_le in A, B. left. auto.
    + intros (t' & rest & E & -> & V). injection E as ->. split; [|now exists rest]. intros c I.
      unfold visible, in_range. apply orb_true_iff. destruct (V c I) as [[A B]|A]; [left|right; now apply N.eqb_eq].
      apply andb_true_iff. split; now apply N.leb_le.
  - split; [discriminate|]. intros (? & ? & E & _). discriminate.
Qed.
(** C102: the server acts only on GET, HEAD and POST to the authorization endpoint, with the parameters given there; what
    it does is what the wallet does for them, or a beginning of it when the time is up. *)
Lemma c102_effects_pf :
  forall (url_parse : string -> option url) (ssi_header : obj -> option bool) (uri_ok : string -> bool)
    (jwk_ok : obj -> bool) (jwe_encrypt : obj -> obj -> obj -> res string) (lower sign : string -> string) (now : Z)
    (http : http_client) (endpoint : url) (store : list credential) (auto_consent : bool)
    (describe : string -> string) (reason : N -> string) (public_url : url) (point : string * string)
    (cut : option nat) (q : hrequest),
    let r := serve_http url_parse ssi_header uri_ok jwk_ok jwe_encrypt lower sign now http endpoint store auto_consent describe reason
               public_url point cut q in
    let run p := authorize url_parse ssi_header uri_ok jwk_ok jwe_encrypt lower sign now http endpoint store auto_consent p in
    (fst r <> [] ->
     hq_path q = "/authorize"
     /\ exists text p rest, form_of q text /\ gives text p /\ fst (run p) = fst r ++ rest /\ (cut = None -> rest = []))
    /\ (forall text p, hq_path q = "/authorize" -> form_of q text -> gives text p ->
          (N.of_nat (String.length (hq_body q)) <= 1048576)%N -> cut = None -> fst r = fst (run p)).
Proof.
  intros up ssi uok jok enc lower sign now http ep store consent de re pu pt cut q r run.
  assert (PR : forall p, fst (process up ssi uok jok enc lower sign now http ep store consent de re p) = fst (run p)).
  { intros p. now destruct (cases up ssi uok jok enc lower sign now http ep store consent de re p). }
  assert (RO : forall l : list wevent * hreply, l = route up ssi uok jok enc lower sign now http ep store consent de re pu pt q -> fst l <> [] ->
     hq_path q = "/authorize" /\ exists text p, form_of q text /\ gives text p /\ fst (run p) = fst l).
  { intros l -> . unfold route, form_of. destruct (String.eqb_spec (hq_path q) "/authorize") as [Ep|Np].
    - intros N. split; [exact Ep|]. destruct (is_get (hq_method q)) eqn:G.
      + assert (H : hq_method q = "GET" \/ hq_method q = "HEAD").
        { unfold is_get in G. apply orb_true_iff in G as [G|G]; apply String.eqb_eq in G; auto. }
        unfold headless, authorization_get in *.
        destruct (read_params (match hq_query q with Some t => t | None => "" end)) as [p|e] eqn:R.
        * exists (match hq_query q with Some t => t | None => "" end), p. split; [left; auto|]. split; [now apply c102_params_pf|].
          rewrite <- PR. destruct (String.eqb (hq_method q) "HEAD"); reflexivity.
        * destruct (String.eqb (hq_method q) "HEAD"); now cbn in N.
      + destruct (String.eqb_spec (hq_method q) "POST") as [M|M]; [|now cbn in N].
        unfold authorization_post in *. destruct (is_form (hq_content_type q)) eqn:IF; [apply is_form_iff in IF|now cbn in N].
        destruct (read_params (hq_body q)) as [p|e] eqn:R; [|now cbn in N].
        exists (hq_body q), p. split; [right; auto|]. split; [now apply c102_params_pf|]. now rewrite PR.
    - intros N. exfalso. apply N. destruct (find _ _) as [[k j]|]; [|reflexivity]. destruct (is_get _); [|reflexivity].
      unfold headless, page. now destruct (String.eqb _ _). }
  unfold r, serve_http. destruct (N.ltb_spec body_limit (N.of_nat (String.length (hq_body q)))) as [L|L].
  { split; [intros N; now cbn in N|]. intros text p _ _ _ H. exfalso. change body_limit with 1048576%N in L. lia. }
  cbn zeta. destruct (String.eqb_spec (hq_method q) "OPTIONS") as [O|O].
  { split.
    - intros N. exfalso. apply N. destruct cut as [n|]; [now destruct n|reflexivity].
    - intros text p _ F _ _ _. exfalso. unfold form_of in F. destruct F as [[[F|F] _]|[F _]]; congruence. }
  split.
  - intros N. destruct cut as [n|]; cbn [fst] in N |- *.
    + assert (N' : fst (route up ssi uok jok enc lower sign now http ep store consent de re pu pt q) <> []).
      { intros E. apply N. rewrite E. now destruct n. }
      destruct (RO _ eq_refl N') as (E & text & p & F & G & R). split; [exact E|]. exists text, p.
      exists (skipn n (fst (run p))). split; [exact F|]. split; [exact G|]. split; [|discriminate].
      rewrite <- R. now rewrite firstn_skipn.
    + destruct (RO _ eq_refl N) as (E & text & p & F & G & R). split; [exact E|]. exists text, p, []. rewrite app_nil_r. auto.
  - intros text p E F G _ ->. unfold route. rewrite E. cbn [String.eqb Ascii.eqb Bool.eqb]. apply c102_params_pf in G.
    rewrite <- PR. destruct F as [[M ->]|(M & I & ->)].
    + assert (S : is_get (hq_method q) = true) by (destruct M as [->| ->]; reflexivity). rewrite S. unfold headless, authorization_get. rewrite G.
      now destruct (String.eqb (hq_method q) "HEAD").
    + rewrite M. cbn [is_get String.eqb Ascii.eqb Bool.eqb orb]. unfold authorization_post. apply is_form_iff in I. now rewrite I, G.
Qed.

Lemma find_page up ep store pu pt path :
  match find (fun x => String.eqb (fst x) path) (pages up ep store pu pt) with
  | Some _ => In path page_paths
  | None => ~ In path page_paths
  end.
Proof.
  change page_paths with (map fst (pages up ep store pu pt)).
  destruct (find _ _) as [[k j]|] eqn:F.
  - apply find_some in F as [I E]. apply String.eqb_eq in E. cbn [fst] in E. subst. apply in_map_iff. now exists (path, j).
  - intros I. apply in_map_iff in I as ([k j] & E & I). cbn [fst] in E. subst k. apply (find_none _ _ F) in I. cbn [fst] in I.
    rewrite String.eqb_refl in I. discriminate.
Qed.
Lemma is_get_iff m : is_get m = true <-> m = "GET" \/ m = "HEAD".
Proof. unfold is_get. rewrite orb_true_iff, !String.eqb_eq. tauto. Qed.

(** C102: what is refused before the wallet sees it, and how: nothing is done, and the status says why. *)
Lemma c102_refused_pf :
  forall (url_parse : string -> option url) (ssi_header : obj -> option bool) (uri_ok : string -> bool)
    (jwk_ok : obj -> bool) (jwe_encrypt : obj -> obj -> obj -> res string) (lower sign : string -> string) (now : Z)
    (http : http_client) (endpoint : url) (store : list credential) (auto_consent : bool)
    (describe : string -> string) (reason : N -> string) (public_url : url) (point : string * string) (q : hrequest),
    let r := serve_http url_parse ssi_header uri_ok jwk_ok jwe_encrypt lower sign now http endpoint store auto_consent describe reason
               public_url point None q in
    let refused status := r = ([], mk_hreply status None) in
    let m := hq_method q in
    ((1048576 < N.of_nat (String.length (hq_body q)))%N -> refused 413%N)
    /\ ((N.of_nat (String.length (hq_body q)) <= 1048576)%N ->
        (m = "OPTIONS" -> refused 200%N)
        /\ (m <> "OPTIONS" ->
            (~ In (hq_path q) ("/authorize" :: page_paths) -> refused 404%N)
            /\ (In (hq_path q) page_paths -> ~ In m ["GET"; "HEAD"] -> refused 405%N)
            /\ (hq_path q = "/authorize" ->
                (~ In m ["GET"; "HEAD"; "POST"] -> refused 405%N)
                /\ (forall text, In m ["GET"; "HEAD"] -> form_of q text -> repeats text -> refused 400%N)
                /\ (m = "POST" -> ~ says_form q -> refused 415%N)
                /\ (m = "POST" -> says_form q -> repeats (hq_body q) -> refused 422%N)))).
Proof.
  intros up ssi uok jok enc lower sign now http ep store consent de re pu pt q r refused m. unfold refused, r, serve_http.
  change body_limit with 1048576%N. destruct (N.ltb_spec 1048576 (N.of_nat (String.length (hq_body q)))) as [L|L].
  { split; [reflexivity|]. intros H. exfalso. lia. }
  split; [intros H; exfalso; lia|]. intros _. cbn zeta. fold m. destruct (String.eqb_spec m "OPTIONS") as [O|O].
  { split; [reflexivity|]. intros H. contradiction. }
  split; [intros H; contradiction|]. intros _.
  assert (PA : ~ In "/authorize" page_paths) by (cbn; intros H; repeat (destruct H as [H|H]; [discriminate H|]); exact H).
  unfold route. fold m. split; [|split].
  - intros N. destruct (String.eqb_spec (hq_path q) "/authorize") as [E|E]; [destruct N; now left|].
    pose proof (find_page up ep store pu pt (hq_path q)) as F. destruct (find _ _) as [[k j]|]; [|reflexivity].
    destruct N. now right.
  - intros I N. destruct (String.eqb_spec (hq_path q) "/authorize") as [E|E]; [now rewrite E in I|].
    pose proof (find_page up ep store pu pt (hq_path q)) as F. destruct (find _ _) as [[k j]|]; [|contradiction].
    destruct (is_get m) eqn:G; [|reflexivity]. destruct N. apply is_get_iff in G. cbn. destruct G; auto.
  - intros E. rewrite E. cbn [String.eqb Ascii.eqb Bool.eqb]. split; [|split; [|split]].
    + intros N. destruct (is_get m) eqn:G; [destruct N; apply is_get_iff in G; cbn; destruct G; auto|].
      destruct (String.eqb_spec m "POST") as [P|P]; [destruct N; cbn; auto|reflexivity].
    + intros text I F R. assert (G : is_get m = true) by (apply is_get_iff; cbn in I; destruct I as [I|[I|[]]]; auto). rewrite G.
      assert (T : text = match hq_query q with Some t => t | None => "" end).
      { destruct F as [[_ F]|[F _]]; [exact F|]. exfalso. fold m in F. rewrite F in I. cbn in I. destruct I as [I|[I|[]]]; discriminate. }
      apply repeats_err in R as (e & R). rewrite T in R. unfold authorization_get, headless. rewrite R. now destruct (String.eqb m "HEAD").
    + intros P F. rewrite P. cbn [is_get String.eqb Ascii.eqb Bool.eqb orb]. unfold authorization_post. destruct (is_form (hq_content_type q)) eqn:IF; [|reflexivity]. now apply is_form_iff in IF.
    + intros P F R. rewrite P. cbn [is_get String.eqb Ascii.eqb Bool.eqb orb]. unfold authorization_post. apply is_form_iff in F. rewrite F.
      apply repeats_err in R as (e & R). now rewrite R.
Qed.

(* ------------------------------------------------------------ what the replies tell *)
Lemma qualifies_same lower q c c' : same_outside c c' -> qualifies lower q c = qualifies lower q c'.
Proof. intros (F & V & D & C). unfold qualifies. now rewrite F, V, D, C. Qed.
Lemma find_same lower q s s' : Forall2 same_outside s s' ->
  match find (qualifies lower q) s, find (qualifies lower q) s' with Some _, Some _ | None, None => True | _, _ => False end.
Proof.
  induction 1 as [|c c' s s' S F IH]; cbn [find]; [exact I|]. rewrite (qualifies_same _ _ _ _ S).
  now destruct (qualifies lower q c').
Qed.
Lemma sel_add_keys id raw raw' : forall s s', map fst s = map fst s' -> map fst (sel_add id raw s) = map fst (sel_add id raw' s').
Proof.
  induction s as [|[k l] s IH]; intros [|[k' l'] s'] E; try discriminate; [reflexivity|]. cbn [map fst] in E. injection E as -> E.
  cbn [sel_add]. destruct (String.eqb k' id); cbn [map fst]; f_equal; auto.
Qed.
Lemma match_all_same lower st st' (H : Forall2 same_outside st st') : forall qs s s', map fst s = map fst s' ->
  match match_all lower st qs s, match_all lower st' qs s' with
  | Ok x, Ok x' => map fst x = map fst x' | Err e, Err e' => e = e' | _, _ => False end.
Proof.
  induction qs as [|q qs IH]; intros s s' E; cbn [match_all]; [exact E|]. rewrite !match_find.
  pose proof (find_same lower q _ _ H) as F.
  destruct (find (qualifies lower q) st) as [c|], (find (qualifies lower q) st') as [c'|]; try contradiction; cbn [ok_or rbind].
  - apply IH. now apply sel_add_keys.
  - reflexivity.
Qed.
Lemma engine_same lower st st' consent a : Forall2 same_outside st st' ->
  match process_request lower st consent a, process_request lower st' consent a with
  | Ok _, Ok _ => True | Err e, Err e' => e = e' | _, _ => False end.
Proof.
  intros H. unfold process_request. destruct (of_bool consent _) as [u|e]; cbn [rbind]; [|reflexivity].
  destruct (match aro_dcql a with Some r => _ | None => _ end) as [d|e]; cbn [rbind]; [|reflexivity].
  unfold match_query. pose proof (match_all_same lower st st' H (dq_credentials d) [] [] eq_refl) as M.
  destruct (match_all lower st _ _) as [x|e], (match_all lower st' _ _) as [x'|e']; try contradiction; cbn [rbind]; [|exact M].
  destruct x, x'; try discriminate; auto.
Qed.
Lemma submit_same up http de re u b b' st : blind http -> snd (submit up http de re u b st) = snd (submit up http de re u b' st).
Proof.
  intros B. unfold submit. unfold blind in B. change wallet_post with plain_post in B. rewrite (B u b b'). destruct (http (plain_post u b')) as [rs|e]; [|reflexivity].
  destruct (is_success _); [|reflexivity]. destruct (match json_of_text _ with Some (JObj m) => _ | _ => None end); reflexivity.
Qed.
Lemma payload_ok vp st : forallb (fun kv => claim_ok (fst kv) (snd kv)) (response_payload vp st) = true.
Proof. destruct st; reflexivity. Qed.
Lemma build_same jok enc info vp vp' st : uniform enc ->
  let build v := let b := jb_set_alg (ki_alg info) (jb_set_payload (JObj (response_payload v st)) jb_new) in
                 let b := match ki_kid info with Some k => jb_set_kid k b | None => b end in
                 let? b := jb_set_key_json jok (JObj (ki_jwk info)) b in jwe_build enc b in
  match build vp, build vp' with Ok _, Ok _ => True | Err e, Err e' => e = e' | _, _ => False end.
Proof.
  intros U build. unfold build.
  assert (X : forall b b', jb_key b = jb_key b' -> jb_alg b = jb_alg b' -> jb_enc b = jb_enc b' -> jb_kid b = jb_kid b' ->
     jb_payload b = Some (JObj (response_payload vp st)) -> jb_payload b' = Some (JObj (response_payload vp' st)) ->
     match jwe_build enc b, jwe_build enc b' with Ok _, Ok _ => True | Err e, Err e' => e = e' | _, _ => False end).
  { intros b b' E1 E2 E3 E4 E5 E6. unfold jwe_build. rewrite E1, E2, E3, E4, E5, E6. cbn [ok_or rbind].
    destruct (ok_or (jb_key b') _) as [key|]; cbn [rbind]; [|reflexivity].
    destruct (ok_or (jb_alg b') _) as [alg|]; cbn [rbind]; [|reflexivity].
    destruct (of_bool _ _); cbn [rbind]; [|reflexivity]. rewrite !payload_ok. cbn [of_bool rbind].
    set (h := jwe_header _ _ _). destruct (enc h (response_payload vp st) key) as [j|e] eqn:E.
    - destruct (enc h (response_payload vp' st) key) as [j'|e'] eqn:E'; [exact I|].
      apply (U _ _ (response_payload vp st)) in E'. congruence.
    - now rewrite (U _ _ (response_payload vp' st) _ _ E). }
  unfold jb_set_key_json. destruct (jwk_of_text jok (jprint (JObj (ki_jwk info)))) as [k|]; cbn [rbind].
  - apply X; destruct (ki_kid info); reflexivity.
  - reflexivity.
Qed.

(** C103: whoever talks to the server, and is not the verifier, learns nothing about the credentials, the claim values or
    the holder's key from the replies: they are the same for any two wallets with credentials that look the same from
    outside, if the verifier answers both in the same way. *)
Lemma c103_private_pf :
  forall (url_parse : string -> option url) (ssi_header : obj -> option bool) (uri_ok : string -> bool)
    (jwk_ok : obj -> bool) (jwe_encrypt : obj -> obj -> obj -> res string) (lower sign sign' : string -> string) (now now' : Z)
    (http : http_client) (endpoint : url) (store store' : list credential) (auto_consent : bool)
    (describe : string -> string) (reason : N -> string) (public_url : url) (point : string * string)
    (cut : option nat) (q : hrequest),
    Forall2 same_outside store store' -> blind http -> uniform jwe_encrypt ->
    snd (serve_http url_parse ssi_header uri_ok jwk_ok jwe_encrypt lower sign now http endpoint store auto_consent describe reason
           public_url point cut q)
    = snd (serve_http url_parse ssi_header uri_ok jwk_ok jwe_encrypt lower sign' now' http endpoint store' auto_consent describe reason
             public_url point cut q).
Proof.
  intros up ssi uok jok enc lower sign sign' now now' http ep st st' consent de re pu pt cut q H B U.
  assert (P : forall p, snd (process up ssi uok jok enc lower sign now http ep st consent de re p)
                      = snd (process up ssi uok jok enc lower sign' now' http ep st' consent de re p)).
  { intros p. unfold process. destruct (from_url _ _ _) as [ar|e]; [|reflexivity]. cbn zeta.
    destruct (snd (resolve_request _ _ _ _ _)) as [[a jwt]|e]; [|reflexivity].
    destruct (aro_dcql a) as [[d|e]|]; [|reflexivity|reflexivity].
    pose proof (engine_same lower st st' consent a H) as E.
    destruct (process_request lower st consent a) as [s|e], (process_request lower st' consent a) as [s'|e']; try contradiction; [|now rewrite E].
    destruct (redirect_uri_bound a); [|reflexivity].
    destruct (ro_mode a); try reflexivity; cbn [snd].
    - unfold submit_direct_post. now apply submit_same.
    - unfold submit_direct_post_jwt. destruct (verifier_key jok a) as [info|e]; [|reflexivity].
      set (s0 := match aro_state a with Some (Ok _) => _ | _ => _ end).
      set (v := build_vp_token sign _ _ _ _). set (v' := build_vp_token sign' _ _ _ _).
      pose proof (build_same jok enc info v v' s0 U) as X. cbn zeta in X |- *.
      destruct (let? b := jb_set_key_json jok (JObj (ki_jwk info)) match ki_kid info with
          | Some k => jb_set_kid k (jb_set_alg (ki_alg info) (jb_set_payload (JObj (response_payload v s0)) jb_new))
          | None => jb_set_alg (ki_alg info) (jb_set_payload (JObj (response_payload v s0)) jb_new) end in jwe_build enc b) as [j|e],
        (let? b := jb_set_key_json jok (JObj (ki_jwk info)) match ki_kid info with
          | Some k => jb_set_kid k (jb_set_alg (ki_alg info) (jb_set_payload (JObj (response_payload v' s0)) jb_new))
          | None => jb_set_alg (ki_alg info) (jb_set_payload (JObj (response_payload v' s0)) jb_new) end in jwe_build enc b) as [j'|e'];
        try contradiction; [now apply submit_same|now rewrite X]. }
  assert (L : length st = length st') by (clear - H; induction H; cbn; congruence).
  unfold serve_http. destruct (_ <? _)%N; [reflexivity|]. cbn zeta. destruct cut as [n|]; [reflexivity|].
  destruct (String.eqb (hq_method q) "OPTIONS"); [reflexivity|]. unfold route.
  destruct (String.eqb (hq_path q) "/authorize").
  - destruct (is_get (hq_method q)).
    + unfold headless, authorization_get. destruct (read_params _) as [p|e]; [|reflexivity].
      destruct (String.eqb (hq_method q) "HEAD"); cbn [snd]; now rewrite (P p).
    + destruct (String.eqb (hq_method q) "POST"); [|reflexivity]. unfold authorization_post.
      destruct (is_form _); [|reflexivity]. destruct (read_params _) as [p|e]; [apply P|reflexivity].
  - unfold pages, debug_config, debug_credentials. now rewrite L.
Qed.

(** C102: HEAD does all that GET does, and answers with the same status, without a body. *)
Lemma c102_head_pf :
  forall (url_parse : string -> option url) (ssi_header : obj -> option bool) (uri_ok : string -> bool)
    (jwk_ok : obj -> bool) (jwe_encrypt : obj -> obj -> obj -> res string) (lower sign : string -> string) (now : Z)
    (http : http_client) (endpoint : url) (store : list credential) (auto_consent : bool)
    (describe : string -> string) (reason : N -> string) (public_url : url) (point : string * string)
    (cut : option nat) (path : string) (query content_type : option string) (body : string),
    let by_method m := serve_http url_parse ssi_header uri_ok jwk_ok jwe_encrypt lower sign now http endpoint store auto_consent
                         describe reason public_url point cut (mk_hrequest m path query content_type body) in
    fst (by_method "HEAD") = fst (by_method "GET")
    /\ hr_status (snd (by_method "HEAD")) = hr_status (snd (by_method "GET")) /\ hr_json (snd (by_method "HEAD")) = None.
Proof.
  intros up ssi uok jok enc lower sign now http ep st consent de re pu pt cut path query ct body by_method.
  unfold by_method, serve_http, route. cbn [hq_body hq_method hq_path hq_query hq_content_type].
  destruct (_ <? _)%N; [repeat split; reflexivity|]. cbn zeta. cbn [String.eqb Ascii.eqb Bool.eqb is_get orb].
  destruct cut as [n|].
  - destruct (String.eqb path "/authorize"); [|destruct (find _ _) as [[k j]|]]; cbn [fst snd headless String.eqb Ascii.eqb Bool.eqb];
      repeat split; reflexivity.
  - destruct (String.eqb path "/authorize"); [|destruct (find _ _) as [[k j]|]]; cbn [fst snd headless String.eqb Ascii.eqb Bool.eqb];
      repeat split; reflexivity.
Qed.

(** C103: the key set page holds the holder's public point and nothing secret. *)
Lemma c103_jwks_pf :
  forall (url_parse : string -> option url) (ssi_header : obj -> option bool) (uri_ok : string -> bool)
    (jwk_ok : obj -> bool) (jwe_encrypt : obj -> obj -> obj -> res string) (lower sign : string -> string) (now : Z)
    (http : http_client) (endpoint : url) (store : list credential) (auto_consent : bool)
    (describe : string -> string) (reason : N -> string) (public_url : url) (x y : string)
    (query content_type : option string) (body : string),
    (N.of_nat (String.length body) <= 1048576)%N ->
    exists key,
      serve_http url_parse ssi_header uri_ok jwk_ok jwe_encrypt lower sign now http endpoint store auto_consent describe reason
        public_url (x, y) None (mk_hrequest "GET" "/.well-known/jwks.json" query content_type body)
      = ([], mk_hreply 200 (Some (JObj [("keys", JArr [JObj key])])))
      /\ (exists bx b_y, text_at "x" key bx /\ b64url_decode bx = Some x /\ text_at "y" key b_y /\ b64url_decode b_y = Some y)
      /\ text_at "kty" key "EC" /\ text_at "crv" key "P-256" /\ text_at "alg" key "ES256" /\ text_at "use" key "sig"
      /\ forall k, In k private_members -> absent k key.
Proof.
  intros up ssi uok jok enc lower sign now http ep st consent de re pu x y query ct body L.
  eexists. split.
  { unfold serve_http, route. cbn [hq_body hq_method hq_path]. change body_limit with 1048576%N.
    destruct (N.ltb_spec 1048576 (N.of_nat (String.length body))); [lia|]. reflexivity. }
  unfold text_at, absent. split; [|split; [reflexivity|split; [reflexivity|split; [reflexivity|split; [reflexivity|]]]]].
  - do 2 eexists. split; [reflexivity|]. split; [apply b64_rt|]. split; [reflexivity|apply b64_rt].
  - intros k I. repeat (destruct I as [<-|I]; [reflexivity|]). destruct I.
Qed.

(* ------------------------------------------------------------ a server to look at *)
Definition hx_serve (http : http_client) (store : list credential) (cut : option nat) (q : hrequest) : list wevent * hreply :=
  serve_http simple_parse any_header (fun _ => true) (fun _ => true) (fun h c k => Ok (jprint (JArr [JObj h; JObj c])))
    (fun s => s) (fun _ => "S") 5 http ex_endpoint store true (fun e => e) (fun _ => "500 Internal Server Error") ex_endpoint ("X", "Y") cut q.
Definition hx_process (http : http_client) (store : list credential) (p : params) : list wevent * hreply :=
  process simple_parse any_header (fun _ => true) (fun _ => true) (fun h c k => Ok (jprint (JArr [JObj h; JObj c])))
    (fun s => s) (fun _ => "S") 5 http ex_endpoint store true (fun e => e) (fun _ => "500 Internal Server Error") p.
Definition hx_params (state : option string) (o : obj) : params :=
  mk_params (Some "redirect_uri:https://v.example/resp") (Some (jwt_of typ_ok o)) None None None state None None None.
Definition hx_good : params := hx_params (Some "outer") (ex_object "redirect_uri:https://v.example/resp").
Definition hx_inner : params :=
  hx_params (Some "outer") (obj_insert "state" (JStr "inner") (ex_object "redirect_uri:https://v.example/resp")).
Definition hx_get (m : string) (p : params) : hrequest :=
  mk_hrequest m "/authorize" (Some (form_serialize (param_pairs p))) None "".
Definition hx_post (p : params) : hrequest :=
  mk_hrequest "POST" "/authorize" None (Some "application/x-www-form-urlencoded; charset=utf-8") (form_serialize (param_pairs p)).
Definition hx_redirect : http_client := serve 200 "{""redirect_uri"":""https://v.example/done""}".

Example c102_outcome_ex :
  snd (hx_process hx_redirect [pid] hx_good) = success_reply (Some "https://v.example/done")
  /\ map rq_method (http_events (fst (hx_process hx_redirect [pid] hx_good))) = ["POST"; "GET"]
  /\ hr_status (snd (hx_process hx_redirect [] hx_good)) = 400%N.
Proof. repeat split; vm_compute; reflexivity. Qed.
Example c102_sent_ex :
  hr_status (snd (hx_process (serve 500 "broken") [pid] hx_good)) = 502%N
  /\ map rq_uri (posts (http_events (fst (hx_process (serve 500 "broken") [pid] hx_good)))) = ["https://v.example/resp"]
  /\ hr_status (snd (hx_process (fun _ => Err "refused") [pid] hx_good)) = 502%N
  /\ hr_status (snd (hx_process (serve 200 "") [] hx_good)) = 400%N.
Proof. repeat split; vm_compute; reflexivity. Qed.
Example c102_echo_ex :
  snd (hx_process (serve 500 "broken") [pid] hx_inner)
  = error_reply 502 "verifier_error" "Verifier returned 500 Internal Server Error: broken" (Some "inner")
  /\ snd (hx_process (serve 500 "broken") [] hx_inner) = error_reply 400 "access_denied" "no matching credential" (Some "outer").
Proof. split; vm_compute; reflexivity. Qed.
Example c102_denied_ex :
  error_page "access_denied" (Some "outer") (snd (hx_process (serve 200 "") [] hx_good)).
Proof.
  assert (E : snd (hx_process (serve 200 "") [] hx_good) = error_reply 400 "access_denied" "no matching credential" (Some "outer"))
    by (vm_compute; reflexivity).
  rewrite E. apply error_is.
Qed.
Example c102_effects_ex :
  snd (hx_serve hx_redirect [pid] None (hx_post hx_good)) = success_reply (Some "https://v.example/done")
  /\ fst (hx_serve hx_redirect [pid] None (hx_post hx_good)) = fst (hx_process hx_redirect [pid] hx_good)
  /\ fst (hx_serve hx_redirect [pid] None (hx_get "DELETE" hx_good)) = [].
Proof. repeat split; vm_compute; reflexivity. Qed.
Example c102_refused_ex :
  hx_serve hx_redirect [pid] None (mk_hrequest "GET" "/authorize" (Some "state=1&nonce=2&state=1") None "") = ([], mk_hreply 400 None)
  /\ hx_serve hx_redirect [pid] None (mk_hrequest "POST" "/authorize" None (Some "application/json") "{}") = ([], mk_hreply 415 None)
  /\ hx_serve hx_redirect [pid] None (mk_hrequest "POST" "/health" None None "") = ([], mk_hreply 405 None)
  /\ hx_serve hx_redirect [pid] None (mk_hrequest "GET" "/authorize/" None None "") = ([], mk_hreply 404 None).
Proof. repeat split; vm_compute; reflexivity. Qed.
Fixpoint forallb2_str (a b : list string) : bool :=
  match a, b with [], [] => true | x :: a, y :: b => String.eqb x y && forallb2_str a b | _, _ => false end.
Definition pid' : credential :=
  mk_credential "pid2" DcSdJwt (Some "urn:pid") None "other~disc~kb" [("given_name", JStr "Jane")].
Example c103_private_ex :
  Forall2 same_outside [pid] [pid'] /\ blind hx_redirect
  /\ map rq_body (posts (http_events (fst (hx_serve hx_redirect [pid] None (hx_post hx_good)))))
     <> map rq_body (posts (http_events (fst (hx_serve hx_redirect [pid'] None (hx_post hx_good)))))
  /\ hr_status (snd (hx_serve hx_redirect [pid'] None (hx_post hx_good))) = 200%N.
Proof.
  split; [repeat constructor|]. split; [intros u b b'; reflexivity|]. split; [|vm_compute; reflexivity].
  intros E. assert (X : forallb2_str (map rq_body (posts (http_events (fst (hx_serve hx_redirect [pid] None (hx_post hx_good))))))
    (map rq_body (posts (http_events (fst (hx_serve hx_redirect [pid'] None (hx_post hx_good)))))) = false) by (vm_compute; reflexivity).
  rewrite E in X. clear E. revert X. generalize (map rq_body (posts (http_events (fst (hx_serve hx_redirect [pid'] None (hx_post hx_good)))))).
  intros l. induction l as [|x l IH]; cbn; [discriminate|]. rewrite String.eqb_refl. exact IH.
Qed.
Example c102_head_ex :
  map rq_method (http_events (fst (hx_serve hx_redirect [pid] None (hx_get "HEAD" hx_good)))) = ["POST"; "GET"]
  /\ snd (hx_serve hx_redirect [pid] None (hx_get "HEAD" hx_good)) = mk_hreply 200 None.
Proof. split; vm_compute; reflexivity. Qed.
Example c103_jwks_ex :
  snd (hx_serve hx_redirect [pid] None (mk_hrequest "GET" "/.well-known/jwks.json" None None ""))
  = mk_hreply 200 (Some (JObj [("keys", JArr [public_jwk ("X", "Y")])])).
Proof. vm_compute. reflexivity. Qed.

(** C102: a timeout says nothing about the presentation: the caller may be told 408 although it was delivered and
    accepted. *)
Lemma c102_timeout_refuted_pf :
  exists (http : http_client) (store : list credential) (q : hrequest) (n : nat) (r : http_req) (rs : http_resp),
    hr_status (snd (hx_serve http store (Some n) q)) = 408%N
    /\ posts (http_events (fst (hx_serve http store (Some n) q))) = [r] /\ http r = Ok rs /\ rs_status rs = 200%N.
Proof.
  pose (r := match posts (http_events (fst (hx_serve hx_redirect [pid] None (hx_post hx_good)))) with x :: _ => x | [] => get_request ex_endpoint end).
  exists hx_redirect, [pid], (hx_post hx_good), 1, r, (mk_resp 200 "{""redirect_uri"":""https://v.example/done""}").
  repeat split; vm_compute; reflexivity.
Qed.
