(** How many sessions are kept (C133) *)
From Coq Require Import Lia Sorted Permutation.
From Verif Require Import Base BaseFacts Utf8 Json JsonFacts JsonText Serde Url UrlEncoded Object Formats Params Metadata Dcql
  Request Response Session X509 Client Builder Server ExVerifier.
From Verif Require Import Spec SpecObject SpecRequest SpecBuilder SpecSession SpecServer SpecVerifierEx SpecAtomic SpecExHistory SpecExAtomic SpecPopulation SpecCert CertFacts PfClient
  StoreFacts PfBuilder UuidFacts PfSession PfServer PfHistory PfFresh PfExServer PfExInitiate PfExHistory PfAtomic PfExAtomic.
From Verif Require Import PfPopulation.

(** C133: a verifier keeps at most one session for each id it has stored a session under, and it has no fewer than that, less the number of
    removals, at every moment of every execution with concurrent and cancelled calls. *)
Theorem c133_library :
  forall (url_parse : string -> option url) (y : sys) (ids started : list uuid),
    reachable url_parse y -> kept (sy_store y) ids ->
    NoDup started -> (forall u, In u started <-> In u (begun (map snd (sy_log y)))) ->
    incl ids started /\ length ids <= length started <= length ids + length (ended (map snd (sy_log y))).
Proof. exact c133_library_pf. Qed.
Print Assumptions c133_library.

Example c133_library_witness :
  exists y ids started, reachable simple_parse y /\ kept (sy_store y) ids /\ NoDup started
    /\ (forall u, In u started <-> In u (begun (map snd (sy_log y)))) /\ In 7%N ids.
Proof. exact c133_library_ex. Qed.

(** C133: the example verifier keeps a session for exactly the ids under which it ever stored one; it never removes any. *)
Theorem c133_example :
  forall (url_parse : string -> option url) (jwe_open : string -> res string) (a : adapter) (x : hsys) (u : uuid),
    hreachable url_parse jwe_open a x ->
    ((exists s, st_get u (hs_store x) = Some s) <-> In u (begun (done_by (hs_log x)))).
Proof. exact c133_example_pf. Qed.
Print Assumptions c133_example.

Example c133_example_witness :
  exists x, hreachable simple_parse toy_open (toy_adapter true) x /\ exists u, In u (begun (done_by (hs_log x))).
Proof. exact c133_example_ex. Qed.

(** C133: so it keeps the sessions of all presentations, also of those that have ended long ago: with any configuration under which presentations can be
    started, and for every number of presentations there are ids for, it reaches a state in which nothing is going on, all of them have ended and
    all are kept. *)
Theorem c133_unbounded :
  forall (key : Type) (url_parse : string -> option url) (jwe_open : string -> res string) (to_der : cert -> res string) (c : cert) (sg : signer key)
      (k : obj) (public : url) (encrypted : bool) (a : adapter) (alg der : string) (n : nat),
    app_new url_parse to_der c sg k public encrypted = Ok a -> sg_alg sg = Ok alg -> to_der c = Ok der ->
    (forall id r, at_session public "response" id r -> url_parse (url_str r) <> None) ->
    (forall w, url_parse conformance_wallet = Some w -> url_parse (url_str w) <> None) ->
    (N.of_nat n <= 2 ^ 128)%N ->
    exists x ids, hreachable url_parse jwe_open a x /\ hs_tasks x = [] /\ kept (hs_store x) ids /\ length ids = n
      /\ forall u s, st_get u (hs_store x) = Some s -> exists o, s_status s = Complete o.
Proof. exact c133_unbounded_pf. Qed.
Print Assumptions c133_unbounded.

Example c133_unbounded_witness :
  app_new simple_parse (fun c => Ok (c_spki c)) (named ["v.example"] "K") (mk_signer (Ok "ES256") (Ok "k") (fun _ => "sig"))
          [("kty", JStr "EC")] (toy_url "https://v.example/") true = Ok (toy_adapter true)
  /\ (forall id r, at_session (toy_url "https://v.example/") "response" id r -> simple_parse (url_str r) <> None)
  /\ (forall w, simple_parse conformance_wallet = Some w -> simple_parse (url_str w) <> None)
  /\ exists x ids, hreachable simple_parse toy_open (toy_adapter true) x /\ kept (hs_store x) ids /\ length ids = 12.
Proof. exact c133_unbounded_ex. Qed.
