From Coq Require Import Lia ZArith Permutation.
From Verif Require Import Base BaseFacts Utf8 Utf8Facts Json JsonFacts JsonText JsonTextFacts Base64 Base64Facts Sha256 Serde Url UrlEncoded UrlEncodedFacts
  Object Formats Params Metadata Dcql Effects Jwt Request Response Session X509 SpecCert CertFacts Client Builder Server Jwe ExMatcher ExWallet ExVerifier.
From Verif Require Import Verify Wallet SpecWallet PfWallet MapFacts Spec SpecObject SpecRequest PfRequest PfResolve SpecResponse PfResponse SpecJwe PfJwe SpecBuilder SpecSession StoreFacts
  PfBuilder UuidFacts PfSession PfServer PfClient SpecExample PfExample PfInterop SpecHttp PfHttp PfSealed.

Lemma find_more {A} (f : A -> bool) l l' x : find f l = Some x -> find f (l ++ l') = Some x.
Proof. induction l as [|y l IH]; cbn [find app]; [discriminate|]. destruct (f y); auto. Qed.
Lemma match_all_more lower store more qs : forall s0 s, match_all lower store qs s0 = Ok s -> match_all lower (store ++ more) qs s0 = Ok s.
Proof.
  induction qs as [|q qs IH]; intros s0 s H; [exact H|]. cbn [match_all] in *. rewrite match_find in *. apply rbind_ok in H as (c & E & H).
  apply ok_or_ok in E. rewrite (find_more _ _ more _ E). cbn [ok_or rbind]. now apply IH.
Qed.

(** C134: holding more never answers less: what is selected from some credentials is also selected when there are more behind them. *)
Lemma c134_more_pf :
  forall (lower : string -> string) (store more : list credential) (q : dcql) (sel : selection),
    match_query lower store q = Ok sel -> match_query lower (store ++ more) q = Ok sel.
Proof.
  intros lower st more q sel H. unfold match_query in *. apply rbind_ok in H as (s & E & H). rewrite (match_all_more lower st more _ _ _ E). exact H.
Qed.

Lemma process_more lower st more au a sel : process_request lower st au a = Ok sel -> process_request lower (st ++ more) au a = Ok sel.
Proof.
  unfold process_request. intros H. apply rbind_ok in H as (x & E1 & H). rewrite E1. cbn [rbind]. apply rbind_ok in H as (q & E2 & H). rewrite E2. cbn [rbind].
  now apply c134_more_pf.
Qed.
Lemma process_incl lower st st' au a sel : incl st st' -> process_request lower st au a = Ok sel -> exists sel', process_request lower st' au a = Ok sel'.
Proof.
  intros I. unfold process_request. intros H. apply rbind_ok in H as (x & E1 & H). rewrite E1. cbn [rbind]. apply rbind_ok in H as (q & E2 & H). rewrite E2. cbn [rbind].
  apply c67_complete_pf. assert (X : exists sel, match_query lower st q = Ok sel) by eauto. apply c67_complete_pf in X as [N0 X]. split; [exact N0|].
  intros cq Hc. destruct (X cq Hc) as (c & Ic & S). eauto.
Qed.
Lemma bind_err {E A B} (m : M E A) (f : A -> M E B) x : snd m = Err x -> mbind m f = (fst m, Err x).
Proof. intros H. unfold mbind. now rewrite H. Qed.

(** C134: so the whole conduct of a wallet that answers is unchanged by credentials added behind those it has. *)
Lemma c134_wallet_pf :
  forall (url_parse : string -> option url) (ssi_header : obj -> option bool) (uri_ok : string -> bool)
    (jwk_ok : obj -> bool) (jwe_encrypt : obj -> obj -> obj -> res string) (lower sign : string -> string) (now : Z)
    (http : http_client) (endpoint : url) (store more : list credential) (auto : bool) (p : params),
    let run s := authorize url_parse ssi_header uri_ok jwk_ok jwe_encrypt lower sign now http endpoint s auto p in
    posts (http_events (fst (run store))) <> [] -> run (store ++ more) = run store.
Proof.
  intros up sh uo jo enc lower sign now http ep st more au p run. unfold run, authorize. rewrite !lift_bind.
  destruct (from_url up (build_request_url ep p) ep) as [ar|e]; [|intros X; now destruct X].
  destruct (snd (resolve_request up sh uo http ar)) as [[a j]|e] eqn:R; [|rewrite !(bind_err _ _ _ R); reflexivity].
  rewrite !(bind_to _ _ _ R). rewrite ?lift_bind. destruct (match aro_dcql a with Some r => _ | None => _ end) as [d|e] eqn:D; [|reflexivity]. rewrite ?lift_bind.
  destruct (process_request lower st au a) as [sel|e] eqn:Es.
  - intros _. assert (Es' : process_request lower (st ++ more) au a = Ok sel) by now apply process_more. now rewrite Es'.
  - intros X. exfalso. apply X. cbn [fst]. rewrite app_nil_r. apply posts_resolve.
Qed.

(** C134: whether a wallet answers depends on which credentials it holds, not on their order or on how many there are besides: with a
    superset, in any order, it answers too, and to the same address. *)
Lemma c134_superset_pf :
  forall (url_parse : string -> option url) (ssi_header : obj -> option bool) (uri_ok : string -> bool)
    (jwk_ok : obj -> bool) (jwe_encrypt : obj -> obj -> obj -> res string) (lower sign : string -> string) (now : Z)
    (http : http_client) (endpoint : url) (store store' : list credential) (auto : bool) (p : params),
    uniform jwe_encrypt -> incl store store' ->
    let run s := authorize url_parse ssi_header uri_ok jwk_ok jwe_encrypt lower sign now http endpoint s auto p in
    posts (http_events (fst (run store))) <> [] ->
    map rq_uri (posts (http_events (fst (run store')))) = map rq_uri (posts (http_events (fst (run store)))).
Proof.
  intros up sh uo jo enc lower sign now http ep st st' au p U I run. unfold run, authorize. rewrite !lift_bind.
  destruct (from_url up (build_request_url ep p) ep) as [ar|e]; [|intros X; now destruct X].
  destruct (snd (resolve_request up sh uo http ar)) as [[a j]|e] eqn:R; [|rewrite !(bind_err _ _ _ R); reflexivity].
  rewrite !(bind_to _ _ _ R). rewrite ?lift_bind. destruct (match aro_dcql a with Some r => _ | None => _ end) as [d|e] eqn:D; [|reflexivity]. rewrite ?lift_bind.
  destruct (process_request lower st au a) as [sel|e] eqn:Es.
  2:{ intros X. exfalso. apply X. cbn [fst]. rewrite app_nil_r. apply posts_resolve. }
  destruct (process_incl lower st st' au a sel I Es) as (sel' & Es'). rewrite Es'. rewrite ?lift_bind. destruct (of_bool _ _); [|reflexivity].
  cbn [fst]. rewrite !http_app, !posts_app, posts_resolve. cbn [app].
  destruct (ro_mode a); try reflexivity.
  - intros _. now rewrite !posts_deliver.
  - rewrite ?lift_bind. set (s0 := match aro_state a with Some (Ok _) => _ | _ => _ end).
    set (v := build_vp_token sign now sel _ _). set (v' := build_vp_token sign now sel' _ _).
    destruct (example_seal jo enc a) as [(e & X)|(h & k & X)]; rewrite !X; [reflexivity|].
    destruct (enc h (response_payload v s0) k) as [x|e] eqn:Ex.
    + intros _. destruct (enc h (response_payload v' s0) k) as [x'|e'] eqn:Ex'; [now rewrite !posts_deliver|].
      rewrite (U _ _ (response_payload v s0) _ _ Ex') in Ex. discriminate Ex.
    + intros Z. now destruct Z.
Qed.

(** C134: asking for fewer credentials never gets refused more: whoever can answer a query can answer each part of it. *)
Lemma c134_fewer_pf :
  forall (lower : string -> string) (store : list credential) (q q' : dcql),
    incl (dq_credentials q') (dq_credentials q) -> dq_credentials q' <> [] ->
    (exists sel, match_query lower store q = Ok sel) -> exists sel, match_query lower store q' = Ok sel.
Proof.
  intros lower st q q' I N0 H. apply c67_complete_pf. apply c67_complete_pf in H as [_ H]. split; [exact N0|]. intros cq Hc. now apply H, I.
Qed.
Example c134_fewer_ex :
  is_ok (match_query (fun s => s) [pid] (dcql_new [pid_query "a" "urn:pid" "given_name"; pid_query "b" "urn:pid" "given_name"])) = true.
Proof. vm_compute. reflexivity. Qed.
Example c134_more_ex :
  match_query (fun s => s) [pid] (dcql_new [pid_query "a" "urn:pid" "given_name"]) = Ok [("a", ["iss~disc~kb"])]
  /\ match_query (fun s => s) ([pid] ++ [pid']) (dcql_new [pid_query "a" "urn:pid" "given_name"]) = Ok [("a", ["iss~disc~kb"])]
  /\ match_query (fun s => s) [pid'; pid] (dcql_new [pid_query "a" "urn:pid" "given_name"]) = Ok [("a", ["other~disc~kb"])].
Proof. repeat split; vm_compute; reflexivity. Qed.
Example c134_wallet_ex :
  s_run s_hiding "direct_post" [pid] = s_run s_hiding "direct_post" ([pid] ++ [pid'])
  /\ (1 =? length (fst (s_run s_hiding "direct_post" [pid])))%nat = true.
Proof. split; vm_compute; reflexivity. Qed.
Example c134_superset_ex :
  incl [pid] [pid'; pid] /\ uniform s_hiding /\ (1 =? length (fst (s_run s_hiding "direct_post" [pid'; pid])))%nat = true.
Proof. split; [intros x [<-|[]]; right; now left|]. split; [intros h c c' k e X; discriminate X|vm_compute; reflexivity]. Qed.

(** C134: but within one credential query, asking for less can get refused: the same query without its list of types, asking for nothing else
    that it did not ask for before, is refused by a wallet that answers the longer one. *)
Lemma c134_restrict_refuted_pf :
  exists (store : list credential) (cq cq' : cred_query),
    cq_id cq' = cq_id cq /\ cq_format cq' = cq_format cq /\ cq_claims cq' = cq_claims cq /\ cq_meta cq' = [] /\ lists_types cq
    /\ is_ok (match_query (fun s => s) store (dcql_new [cq])) = true
    /\ match_query (fun s => s) store (dcql_new [cq']) = Err "no matching credential".
Proof.
  exists [pid], (pid_query "a" "urn:pid" "age"), (mk_cred "a" DcSdJwt [] (Some [claims_new [PeStr "age"]]) None None None None).
  repeat (split; [reflexivity|]). split; [eexists; reflexivity|]. split; vm_compute; reflexivity.
Qed.

(** The credentials given for an id. *)
Definition raws_of (id : string) (s : selection) : list string := flat_map (fun kv => if String.eqb (fst kv) id then snd kv else []) s.
Lemma raws_add id i r s : raws_of id (sel_add i r s) = raws_of id s ++ (if String.eqb i id then [r] else []) \/ ~ NoDup (map fst s).
Proof.
  induction s as [|[k l] s IH]; cbn [sel_add].
  - left. unfold raws_of. cbn [flat_map fst snd app]. now rewrite app_nil_r.
  - destruct (String.eqb_spec k i) as [->|N0].
    + destruct (in_dec string_dec i (map fst s)) as [I|I]; [right; cbn [map fst]; intros X; inversion X; contradiction|]. left.
      unfold raws_of. cbn [flat_map fst snd]. destruct (String.eqb_spec i id) as [->|]; [|now rewrite app_nil_r].
      assert (Z : flat_map (fun kv : string * list string => if String.eqb (fst kv) id then snd kv else []) s = []).
      { clear - I. induction s as [|[k l] s IH]; [reflexivity|]. cbn [flat_map fst snd map In] in *. destruct (String.eqb_spec k id) as [->|]; [now destruct I; left|]. apply IH. intros X. apply I. now right. }
      rewrite Z. now rewrite !app_nil_r.
    + destruct IH as [IH|IH]; [left|right; cbn [map fst]; intros X; inversion X; contradiction].
      unfold raws_of in *. cbn [flat_map fst snd]. rewrite IH. now rewrite app_assoc.
Qed.
Lemma raws_all lower store firsts qs : (forall q, In q qs -> find (qualifies lower q) store = Some (firsts q)) -> forall s0 s, NoDup (map fst s0) -> match_all lower store qs s0 = Ok s ->
  forall id, raws_of id s = raws_of id s0 ++ map (fun q => mc_raw (firsts q)) (filter (fun q => String.eqb (cq_id q) id) qs).
Proof.
  induction qs as [|q qs IH]; intros F s0 s N0 H id; cbn [match_all] in H.
  - injection H as <-. cbn [filter map]. now rewrite app_nil_r.
  - rewrite match_find, (F q (or_introl eq_refl)) in H. cbn [ok_or rbind] in H.
    rewrite (IH (fun q' Hq => F q' (or_intror Hq)) _ _ (sel_add_nodup _ _ _ N0) H id).
    destruct (raws_add id (cq_id q) (mc_raw (firsts q)) s0) as [E|E]; [|contradiction]. rewrite E, <- app_assoc. f_equal. cbn [filter]. now destruct (String.eqb (cq_id q) id).
Qed.
Lemma full_add i r s : Forall (fun kv => snd kv <> []) s -> Forall (fun kv : string * list string => snd kv <> []) (sel_add i r s).
Proof.
  induction s as [|[k l] s IH]; intros F; cbn [sel_add]; [constructor; [discriminate|constructor]|]. inversion F; subst. destruct (String.eqb k i); constructor; auto.
  cbn [snd] in *. destruct l; [contradiction|discriminate].
Qed.
Lemma full_all lower store qs : forall s0 s, Forall (fun kv => snd kv <> []) s0 -> match_all lower store qs s0 = Ok s -> Forall (fun kv : string * list string => snd kv <> []) s.
Proof.
  induction qs as [|q qs IH]; intros s0 s F H; cbn [match_all] in H; [now injection H as <-|]. apply rbind_ok in H as (c & _ & H). eapply IH; [|exact H]. now apply full_add.
Qed.
Lemma raws_in id raws s : NoDup (map fst s) -> Forall (fun kv => snd kv <> []) s -> (In (id, raws) s <-> raws <> [] /\ raws_of id s = raws).
Proof.
  induction s as [|[k l] s IH]; intros N0 F.
  - split; [intros []|intros [X <-]; now destruct X].
  - inversion N0 as [|x y I N1]; subst. inversion F as [|x y L F1]; subst. specialize (IH N1 F1). cbn [fst snd] in *. unfold raws_of. cbn [flat_map fst snd In].
    destruct (String.eqb_spec k id) as [->|D].
    + assert (Z : raws_of id s = []).
      { clear - I. induction s as [|[k l] s IH]; [reflexivity|]. unfold raws_of in *. cbn [flat_map fst snd map In] in *. destruct (String.eqb_spec k id) as [->|]; [now destruct I; left|]. apply IH. intros X. apply I. now right. }
      unfold raws_of in Z. rewrite Z, app_nil_r. split.
      * intros [X|X]; [injection X as <-; auto|]. exfalso. apply I. change id with (fst (id, raws)). now apply in_map.
      * intros [_ ->]. now left.
    + cbn [app]. fold (raws_of id s). rewrite <- IH. split; [intros [X|X]; [injection X as -> _; now destruct D|exact X]|now right].
Qed.

(** C134: which credentials are given: for each id, those chosen for the credential queries with this id, in the order of the queries, where each
    query gets the first credential in the store that satisfies it. *)
Lemma c134_first_pf :
  forall (lower : string -> string) (store : list credential) (q : dcql) (sel : selection) (chosen : cred_query -> credential),
    match_query lower store q = Ok sel ->
    (forall cq, In cq (dq_credentials q) ->
       exists before after, store = before ++ chosen cq :: after /\ satisfies lower cq (chosen cq) /\ forall c, In c before -> ~ satisfies lower cq c) ->
    forall id raws, In (id, raws) sel <->
      raws <> [] /\ map (fun cq => mc_raw (chosen cq)) (filter (fun cq => String.eqb (cq_id cq) id) (dq_credentials q)) = raws.
Proof.
  intros lower st q sel ch H Hc id raws. pose proof (c67_sound_pf lower st q sel H) as [Nd _]. unfold match_query in H. apply rbind_ok in H as (s & E & H).
  assert (s = sel) as -> by (destruct s; congruence).
  assert (F : forall cq, In cq (dq_credentials q) -> find (qualifies lower cq) st = Some (ch cq)).
  { intros cq I. destruct (Hc cq I) as (b & a & -> & S & N0). clear - S N0. induction b as [|x b IH]; cbn [app find].
    - apply qualifies_iff in S. now rewrite S.
    - destruct (qualifies lower cq x) eqn:Q; [apply qualifies_iff in Q; destruct (N0 x); [now left|exact Q]|]. apply IH. intros c I. apply N0. now right. }
  rewrite (raws_in id raws sel Nd (full_all _ _ _ _ _ (Forall_nil _) E)).
  rewrite (raws_all lower st ch _ F [] sel (NoDup_nil _) E id). reflexivity.
Qed.
Example c134_first_ex :
  match_query (fun s => s) [pid'; pid] (dcql_new [pid_query "a" "urn:pid" "given_name"; pid_query "a" "urn:pid" "age"]) = Ok [("a", ["other~disc~kb"; "other~disc~kb"])]
  /\ [pid'; pid] = [] ++ pid' :: [pid] /\ satisfies (fun s => s) (pid_query "a" "urn:pid" "given_name") pid'.
Proof. split; [vm_compute; reflexivity|]. split; [reflexivity|]. apply qualifies_iff. reflexivity. Qed.
