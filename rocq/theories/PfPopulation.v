From Coq Require Import Lia Sorted Permutation.
From Verif Require Import Base BaseFacts Utf8 Json JsonFacts JsonText Serde Url UrlEncoded Object Formats Params Metadata Dcql
  Request Response Session X509 Client Builder Server ExVerifier.
From Verif Require Import Spec SpecObject SpecRequest SpecBuilder SpecSession SpecServer SpecVerifierEx SpecAtomic SpecExHistory SpecExAtomic SpecPopulation SpecCert CertFacts PfClient
  StoreFacts PfBuilder UuidFacts PfSession PfServer PfHistory PfFresh PfExServer PfExInitiate PfExHistory PfAtomic PfExAtomic.

Fixpoint eafter (l : list event) : amap := match l with [] => aempty | e :: r => effect e (eafter r) end.
Lemma after_events l : after l = eafter (map snd l).
Proof. induction l as [|[c e] l IH]; [reflexivity|]. cbn [after map snd eafter]. now rewrite IH. Qed.
Lemma hafter_events l : hafter l = eafter (done_by l).
Proof. induction l as [|[h [e|r]] l IH]; [reflexivity| |exact IH]. cbn [hafter]. rewrite IH. reflexivity. Qed.

Lemma update_present u st f v : (fst (apply_abs (OpUpdate u st) f)) v = None <-> f v = None.
Proof.
  cbn [apply_abs]. destruct (f u) as [s|] eqn:E; cbn [fst]; [|reflexivity]. unfold aset. destruct (N.eqb_spec v u) as [->|]; [rewrite E; split; discriminate|reflexivity].
Qed.
Lemma present_begun l u : eafter l u <> None -> In u (begun l).
Proof.
  induction l as [|e l IH]; intros H; [now destruct H|]. cbn [begun flat_map]. apply in_app_iff. cbn [eafter] in H. destruct e as [s [x|x]|v st [x|x]|v x|v [x|x]|s r o|x]; cbn [effect] in H; try (right; now apply IH).
  - unfold aset in H. destruct (N.eqb_spec u (s_uuid s)) as [->|]; [left; now left|right; now apply IH].
  - right. apply IH. intros X. apply H. now apply update_present.
  - unfold aset in H. destruct (N.eqb_spec u v) as [->|]; [now destruct H|right; now apply IH].
Qed.
Lemma begun_kept l u : In u (begun l) -> eafter l u <> None \/ In u (ended l).
Proof.
  induction l as [|e l IH]; intros H; [destruct H|]. cbn [begun flat_map] in H. apply in_app_iff in H.
  assert (Q : eafter l u <> None \/ In u (ended l) -> effect e (eafter l) u <> None \/ In u (ended (e :: l))).
  { intros [X|X]; [|right; cbn [ended flat_map]; apply in_app_iff; now right].
    destruct e as [s [x|x]|v st [x|x]|v x|v [x|x]|s r o|x]; cbn [effect]; try (left; exact X).
    - left. unfold aset. destruct (N.eqb u (s_uuid s)); [discriminate|exact X].
    - left. intros Y. apply X. now apply update_present in Y.
    - unfold aset. destruct (N.eqb_spec u v) as [->|]; [right; now left|left; exact X]. }
  cbn [eafter]. destruct H as [H|H]; [|now apply Q, IH].
  destruct e as [s [x|x]|v st [x|x]|v x|v [x|x]|s r o|x]; try destruct H as [H|[]]; try destruct H. left. cbn [effect]. unfold aset. now rewrite N.eqb_refl.
Qed.

Lemma some_iff {A} (x : option A) : (exists s, x = Some s) <-> x <> None.
Proof. destruct x; split; [discriminate|eauto|intros (? & X); discriminate X|intros X; now destruct X]. Qed.

(** C133: a verifier keeps at most one session for each id it has stored a session under, and it has no fewer than that, less the number of
    removals, at every moment of every execution with concurrent and cancelled calls. *)
Lemma c133_library_pf :
  forall (url_parse : string -> option url) (y : sys) (ids started : list uuid),
    reachable url_parse y -> kept (sy_store y) ids ->
    NoDup started -> (forall u, In u started <-> In u (begun (map snd (sy_log y)))) ->
    incl ids started /\ length ids <= length started <= length ids + length (ended (map snd (sy_log y))).
Proof.
  intros up y ids st R [Ni Ki] Ns Ks. destruct (c88_linear_pf up y R) as [L _].
  assert (I : incl ids st).
  { intros u H. apply Ks, present_begun. rewrite <- after_events, <- L. apply some_iff. now apply Ki. }
  split; [exact I|]. split; [now apply NoDup_incl_length|].
  rewrite <- app_length. apply NoDup_incl_length; [exact Ns|]. intros u H. apply Ks, begun_kept in H. apply in_app_iff. destruct H as [H|H]; [left|now right].
  apply Ki, some_iff. now rewrite L, after_events.
Qed.

(* ------------------------------------------------------------ the example *)
Fixpoint keeps {A} (p : prog A) : Prop :=
  match p with
  | Done _ => True
  | Initiate _ k => forall x, keeps (k x)
  | Update _ _ k => forall x, keeps (k x)
  | Get _ k => forall x, keeps (k x)
  | Remove _ _ => False
  | Validate _ _ k => forall x, keeps (k x)
  end.
Lemma keeps_finish {A B} (f : res A -> B) (p : prog A) : keeps p -> keeps (pfinish f p).
Proof. induction p as [x|s k IH|u st k IH|u k IH|u k IH|s r k IH]; cbn [pfinish keeps]; auto. Qed.
Lemma keeps_handler up a h : keeps (handler up a h).
Proof.
  destruct h as [n f i|sid|sid body|sid]; cbn [handler].
  - unfold initiate_request. apply keeps_finish. unfold build_code. destruct (rb_prepare up _ i _) as [[s d]|]; cbn [keeps]; auto.
  - unfold get_request_object. destruct (uuid_of_string sid); [|exact I]. apply keeps_finish. unfold retrieve_code. cbn [keeps].
    intros [s|e]; cbn [keeps]; [|exact I]. destruct (status_lt _ _); cbn [keeps]; auto.
  - unfold receive_response. destruct (utf8_valid body); [|exact I]. destruct (uuid_of_string sid); [|exact I]. destruct (from_form body); [|exact I].
    apply keeps_finish. unfold verify_code. cbn [keeps]. intros x. repeat (match goal with |- keeps (match ?x with _ => _ end) => destruct x | |- forall _, _ => intros ? | |- True => exact I | _ => progress cbn [keeps] end).
  - unfold get_status. destruct (uuid_of_string sid); [|exact I]. apply keeps_finish. unfold poll_code. cbn [keeps]. intros [s|e]; cbn [keeps]; exact I.
Qed.
Lemma keeps_act {A} m (p : prog A) m' p' e : act m p m' p' e -> keeps p -> keeps p' /\ ended [e] = [].
Proof. intros H K. destruct H; cbn [keeps] in K; try (split; [apply K|reflexivity]). destruct K. Qed.

Lemma none_ended up op a x : hreachable up op a x -> ended (done_by (hs_log x)) = [] /\ forall h p, In (h, p) (hs_tasks x) -> keeps p.
Proof.
  unfold hreachable. remember hs_init as z. intros H. induction H as [z|z y x H IH S]; subst.
  - split; [reflexivity|]. intros h p [].
  - specialize (IH eq_refl). destruct IH as [E T]. destruct S as [m ts l h|m m' pre h p p' post l e A V|m pre h r post l|m pre h p post l]; cbn [hs_log hs_tasks] in *.
    + split; [exact E|]. intros h' p' [X|X]; [injection X as <- <-; apply keeps_handler|now apply (T h')].
    + destruct (keeps_act _ _ _ _ _ A (T h p ltac:(apply in_app_iff; right; now left))) as [K N0]. split.
      * change (done_by ((h, HDoes e) :: l)) with ([e] ++ done_by l). unfold ended in *. rewrite flat_map_app, E, N0. reflexivity.
      * intros h' q X. apply in_app_iff in X as [X|[X|X]]; [apply (T h'); apply in_app_iff; now left|injection X as <- <-; exact K|apply (T h'); apply in_app_iff; right; now right].
    + split; [exact E|]. intros h' q X. apply (T h'). apply in_app_iff. apply in_app_iff in X as [X|X]; [now left|right; now right].
    + split; [exact E|]. intros h' q X. apply (T h'). apply in_app_iff. apply in_app_iff in X as [X|X]; [now left|right; now right].
Qed.

(** C133: the example verifier keeps a session for exactly the ids under which it ever stored one; it never removes any. *)
Lemma c133_example_pf :
  forall (url_parse : string -> option url) (jwe_open : string -> res string) (a : adapter) (x : hsys) (u : uuid),
    hreachable url_parse jwe_open a x ->
    ((exists s, st_get u (hs_store x) = Some s) <-> In u (begun (done_by (hs_log x)))).
Proof.
  intros up op a x u R. destruct (c94_linear_pf up op a x R) as [L _]. rewrite L, hafter_events, some_iff. split; [apply present_begun|].
  intros H. apply begun_kept in H as [H|H]; [exact H|]. rewrite (proj1 (none_ended _ _ _ _ R)) in H. destruct H.
Qed.

Lemma turn_responded up op a u body r m l s : hreachable up op a (mk_hsys m [] l) -> st_get u m = Some s -> (u < 2 ^ 128)%N ->
  utf8_valid body = true -> from_form body = Ok r ->
  exists l', hreachable up op a (mk_hsys (st_insert u (set_status s (Complete (app_validator op s r))) m) [] l').
Proof.
  intros R G B V F.
  assert (E : exists cs y, run false (app_validator op) (handler up a (HResponse (uuid_str u) body)) m
              = (st_insert u (set_status s (Complete (app_validator op s r))) m, cs, Ok y)).
  { cbn [handler]. unfold receive_response. rewrite V, (uuid_back u B), F, run_pfinish. unfold verify_code. cbn [run]. unfold get_session.
    rewrite G. cbn [ok_or run]. unfold update_status. rewrite G. do 2 eexists. reflexivity. }
  destruct E as (cs & y & E). destruct (h_alone up op a (HResponse (uuid_str u) body) _ _ [] l _ _ _ E) as (evs & S). eexists. eapply hsteps_trans; [exact R|].
  eapply hsteps_trans; [|exact S]. eapply hsteps_snoc; [apply hsteps_refl|apply h_start].
Qed.

(** C133: so it keeps the sessions of all presentations, also of those that have ended long ago: with any configuration under which presentations can be
    started, and for every number of presentations there are ids for, it reaches a state in which nothing is going on, all of them have ended and
    all are kept. *)
Lemma c133_unbounded_pf :
  forall (key : Type) (url_parse : string -> option url) (jwe_open : string -> res string) (to_der : cert -> res string) (c : cert) (sg : signer key)
      (k : obj) (public : url) (encrypted : bool) (a : adapter) (alg der : string) (n : nat),
    app_new url_parse to_der c sg k public encrypted = Ok a -> sg_alg sg = Ok alg -> to_der c = Ok der ->
    (forall id r, at_session public "response" id r -> url_parse (url_str r) <> None) ->
    (forall w, url_parse conformance_wallet = Some w -> url_parse (url_str w) <> None) ->
    (N.of_nat n <= 2 ^ 128)%N ->
    exists x ids, hreachable url_parse jwe_open a x /\ hs_tasks x = [] /\ kept (hs_store x) ids /\ length ids = n
      /\ forall u s, st_get u (hs_store x) = Some s -> exists o, s_status s = Complete o.
Proof.
  intros key up op td c sg k pub enc a alg der n Ha Al De Hr Hw.
  assert (X : (N.of_nat n <= 2 ^ 128)%N -> exists m l, hreachable up op a (mk_hsys m [] l)
     /\ (forall u, (exists s, st_get u m = Some s) <-> (u < N.of_nat n)%N) /\ forall u s, st_get u m = Some s -> exists o, s_status s = Complete o).
  { induction n as [|n IH]; intros B.
    - exists [], []. split; [constructor|]. split; [|discriminate]. intros u. cbn [st_get]. split; [intros (? & X); discriminate X|]. intros X. destruct u; discriminate X.
    - rewrite Nat2N.inj_succ in B. assert (B1 : (N.of_nat n < 2 ^ 128)%N) by lia.
      destruct IH as (m & l & R & K & St); [apply N.lt_le_incl; exact B1|].
      destruct (c77_succeeds_pf key up td c sg k pub enc a None 0%N (N.of_nat n) (app_validator op) m alg der Ha Al De (Hr _) Hw) as (m' & j & E).
      pose proof (c77_initiate_pf key up td c sg k pub enc a None 0%N (N.of_nat n) (app_validator op) m m' [] j Ha E) as (v1 & v2 & s & v3 & v4 & v5 & v6 & v7 & _ & _ & _ & G & O & _).
      destruct (h_alone up op a (HInitiate None 0%N (N.of_nat n)) _ _ [] l _ _ _ E) as (evs & S).
      assert (R1 : hreachable up op a (mk_hsys m' [] ((HInitiate None 0%N (N.of_nat n), HReply (RJson 200 j)) :: evs ++ l))).
      { eapply hsteps_trans; [exact R|]. eapply hsteps_trans; [|exact S]. eapply hsteps_snoc; [apply hsteps_refl|]. apply h_start. }
      destruct (turn_responded up op a (N.of_nat n) "response=a.b.c" (Jwt "a.b.c") m' _ s R1 G B1 eq_refl eq_refl) as (l' & R2).
      exists (st_insert (N.of_nat n) (set_status s (Complete (app_validator op s (Jwt "a.b.c")))) m'), l'. split; [exact R2|]. rewrite Nat2N.inj_succ. split.
      + intros u. rewrite st_get_insert. destruct (N.eqb_spec u (N.of_nat n)) as [->|D].
        * split; [intros _; apply N.lt_succ_diag_r|eauto].
        * rewrite (O u D), K. rewrite N.lt_succ_r. clear - D. lia.
      + intros u s1. rewrite st_get_insert. destruct (N.eqb_spec u (N.of_nat n)) as [->|D].
        * intros X. injection X as <-. eexists. reflexivity.
        * rewrite (O u D). apply St. }
  intros B. destruct (X B) as (m & l & R & K & St). exists (mk_hsys m [] l), (map N.of_nat (seq 0 n)). split; [exact R|]. split; [reflexivity|]. cbn [hs_store].
  split; [split|split; [|exact St]].
  - apply FinFun.Injective_map_NoDup; [intros x y; apply Nat2N.inj|apply seq_NoDup].
  - intros u. rewrite K, in_map_iff. split.
    + intros (i & <- & I). apply in_seq in I. clear - I. lia.
    + intros L. exists (N.to_nat u). rewrite N2Nat.id. split; [reflexivity|]. apply in_seq. clear - L. lia.
  - now rewrite map_length, seq_length.
Qed.

Lemma https_parses r : u_scheme r = "https" -> simple_parse (url_str r) <> None.
Proof.
  intros E. destruct r as [sch au pa opq q f]. cbn [u_scheme] in E. subst. unfold simple_parse, url_str. cbn [u_scheme u_auth u_path u_query u_frag].
  set (r := (match au with Some a => _ | None => _ end) +:+ _).
  change (split_once ":" ("https" +:+ ":" +:+ r)) with (Some ("https", r)). cbv iota beta. change (String.eqb "https" EmptyString) with false. cbv iota.
  destruct (split_opt "#" r) as [r1 fr]. destruct (split_opt "?" r1) as [r2 q2]. destruct (strip_prefix "//" r2); [|discriminate].
  destruct (break_slash _). discriminate.
Qed.
Lemma toy_made : app_new simple_parse (fun c => Ok (c_spki c)) (named ["v.example"] "K") (mk_signer (Ok "ES256") (Ok "k") (fun _ => "sig"))
          [("kty", JStr "EC")] (toy_url "https://v.example/") true = Ok (toy_adapter true).
Proof.
  assert (X : is_ok (app_new simple_parse (fun c => Ok (c_spki c)) (named ["v.example"] "K") (mk_signer (Ok "ES256") (Ok "k") (fun _ => "sig"))
          [("kty", JStr "EC")] (toy_url "https://v.example/") true) = true) by (vm_compute; reflexivity).
  unfold toy_adapter. revert X. generalize (app_new simple_parse (fun c => Ok (c_spki c)) (named ["v.example"] "K") (mk_signer (Ok "ES256") (Ok "k") (fun _ => "sig"))
          [("kty", JStr "EC")] (toy_url "https://v.example/") true). intros [x|x] X; [reflexivity|discriminate X].
Qed.
Example c133_unbounded_ex :
  app_new simple_parse (fun c => Ok (c_spki c)) (named ["v.example"] "K") (mk_signer (Ok "ES256") (Ok "k") (fun _ => "sig"))
          [("kty", JStr "EC")] (toy_url "https://v.example/") true = Ok (toy_adapter true)
  /\ (forall id r, at_session (toy_url "https://v.example/") "response" id r -> simple_parse (url_str r) <> None)
  /\ (forall w, simple_parse conformance_wallet = Some w -> simple_parse (url_str w) <> None)
  /\ exists x ids, hreachable simple_parse toy_open (toy_adapter true) x /\ kept (hs_store x) ids /\ length ids = 12.
Proof.
  assert (A : forall id r, at_session (toy_url "https://v.example/") "response" id r -> simple_parse (url_str r) <> None).
  { intros id r (b & (_ & _ & S & _) & (_ & _ & S' & _)). apply https_parses. rewrite S', S. reflexivity. }
  assert (W : forall w, simple_parse conformance_wallet = Some w -> simple_parse (url_str w) <> None).
  { intros w E. apply https_parses. assert (X : option_map u_scheme (simple_parse conformance_wallet) = Some "https") by (vm_compute; reflexivity).
    rewrite E in X. cbn [option_map] in X. now injection X. }
  split; [exact toy_made|]. split; [exact A|]. split; [exact W|].
  destruct (c133_unbounded_pf string simple_parse toy_open _ _ _ _ _ _ _ "ES256" "K" 12 toy_made eq_refl eq_refl A W) as (x & ids & R & _ & K & L & _); [discriminate|].
  exists x, ids. auto.
Qed.
Example c133_example_ex :
  exists x, hreachable simple_parse toy_open (toy_adapter true) x /\ exists u, In u (begun (done_by (hs_log x))).
Proof.
  destruct c133_unbounded_ex as (_ & _ & _ & x & ids & R & K & L). exists x. split; [exact R|]. destruct ids as [|u ids]; [discriminate L|]. exists u.
  apply (c133_example_pf _ _ _ _ u R). apply K. now left.
Qed.

Lemma kept_some m : kept m (nodup N.eq_dec (map fst m)).
Proof.
  split; [apply NoDup_nodup|]. intros u. rewrite nodup_In. induction m as [|[v s] m IH]; cbn [map fst st_get In].
  - split; [intros []|intros (? & X); discriminate X].
  - destruct (N.eqb_spec u v) as [->|D]; [split; [eauto|now left]|]. rewrite <- IH. split; [intros [X|X]; [now destruct D|exact X]|now right].
Qed.
Example c133_library_ex :
  exists y ids started, reachable simple_parse y /\ kept (sy_store y) ids /\ NoDup started
    /\ (forall u, In u started <-> In u (begun (map snd (sy_log y)))) /\ In 7%N ids.
Proof.
  destruct c39_outcome_ex as (y & s & R & G & _). exists y, (nodup N.eq_dec (map fst (sy_store y))), (nodup N.eq_dec (begun (map snd (sy_log y)))).
  split; [exact R|]. split; [apply kept_some|]. split; [apply NoDup_nodup|]. split; [intros u; apply nodup_In|]. apply kept_some. eauto.
Qed.
