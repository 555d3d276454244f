(** A presentation in the company of others (C130) *)
From Coq Require Import Lia ZArith.
From Verif Require Import Base BaseFacts Utf8 Utf8Facts Json JsonFacts JsonText JsonTextFacts Base64 Base64Facts Sha256 Serde Url UrlEncoded UrlEncodedFacts
  Object Formats Params Metadata Dcql Effects Jwt Request Response Session X509 SpecCert CertFacts Client Builder Server Jwe ExMatcher ExWallet ExVerifier.
From Verif Require Import MapFacts Spec SpecObject SpecRequest PfRequest PfResolve SpecResponse PfResponse SpecJwe PfJwe SpecBuilder SpecSession SpecServer StoreFacts
  PfBuilder UuidFacts PfSession PfServer PfClient SpecExample PfExample SpecVerifierEx PfExServer PfExInitiate PfText PfInterop.
From Verif Require Import RandomId SpecRandomId PfRandomId SpecGuess PfGuess SpecExHistory SpecExAtomic SpecConverge PfExHistory PfExAtomic PfConverge SpecCompany.
From Verif Require Import PfCompany.

(** C130: a party that sends its requests about a session one after the other gets the answers it would get from a server used by nobody else,
    whatever others, who do not name that session, do in between: five turns for each request are enough, and what is kept about the session is
    the same too. *)
Theorem c130_undisturbed :
  forall (url_parse : string -> option url) (jwe_open : string -> res string) (a : adapter) (u : uuid) (l : list (hreq * reply)) (m : store)
         (others : strategy) (turns : list bool),
    in_turn url_parse jwe_open a l m -> Forall (fun h => about h = Some u) (map fst l) ->
    (forall h, In h (pt_sent (wo_second (game url_parse jwe_open a nobody others turns))) -> about h <> Some u) ->
    5 * length l <= own_turns turns ->
    let x := game url_parse jwe_open a (patient (rev (map fst l))) others turns in
    replies (pt_log (wo_first x)) = rev l /\ pt_tasks (wo_first x) = [] /\ st_get u (wo_store x) = st_get u m.
Proof. exact c130_undisturbed_pf. Qed.
Print Assumptions c130_undisturbed.

Example c130_undisturbed_witness :
  exists l m, in_turn simple_parse toy_open xa l m /\ Forall (fun h => about h = Some 7%N) (map fst l) /\ length l = 3
    /\ (forall h, In h (pt_sent (wo_second (game simple_parse toy_open xa nobody pest (by_turns 15)))) -> about h <> Some 7%N)
    /\ 5 * length l <= own_turns (by_turns 15)
    /\ length (pt_sent (wo_second (game simple_parse toy_open xa nobody pest (by_turns 15)))) = 5
    /\ length (replies (pt_log (wo_second (game simple_parse toy_open xa nobody pest (by_turns 15))))) = 5.
Proof. exact c130_undisturbed_ex. Qed.

(** C130: with a session whose identifier is drawn at random this fails for at most a fraction of q / 2^122 of the draws when the others send q
    requests. *)
Theorem c130_random :
  forall (url_parse : string -> option url) (jwe_open : string -> res string) (a : adapter) (story : N -> list (hreq * reply)) (left : N -> store)
         (others : strategy) (turns : list bool) (words : list N),
    (forall w, word w -> in_turn url_parse jwe_open a (story w) (left w) /\ Forall (fun h => about h = Some (new_v4 w)) (map fst (story w))
               /\ 5 * length (story w) <= own_turns turns) ->
    NoDup words ->
    (forall w, In w words -> word w
       /\ replies (pt_log (wo_first (game url_parse jwe_open a (patient (rev (map fst (story w)))) others turns))) <> rev (story w)) ->
    (count words * 2 ^ 122 <= count (pt_sent (wo_second (game url_parse jwe_open a nobody others turns))) * 2 ^ 128)%N.
Proof. exact c130_random_pf. Qed.
Print Assumptions c130_random.

Example c130_random_witness :
  (forall w, word w -> in_turn simple_parse toy_open xa (asking_story w) [] /\ Forall (fun h => about h = Some (new_v4 w)) (map fst (asking_story w))
             /\ 5 * length (asking_story w) <= own_turns (repeat true 5 ++ repeat false 5))
  /\ word 5
  /\ map snd (replies (pt_log (wo_first (game simple_parse toy_open xa (patient (rev (map fst (asking_story 6)))) meddler (repeat true 5 ++ repeat false 5))))) = [RError 404]
  /\ map snd (replies (pt_log (wo_first (game simple_parse toy_open xa (patient (rev (map fst (asking_story 5)))) meddler (repeat true 5 ++ repeat false 5))))) <> [RError 404].
Proof. exact c130_random_ex. Qed.

(** C130: so a presentation between the two examples ends as in C79 whatever others do meanwhile: the verifier, asked to start it, for the request
    object, with the wallet's response and for the status, one after the other, answers with the authorization URL, with the request object, with
    200 and with success, among any others who do not name the session. *)
Theorem c130_presentation
  : forall (key : Type) (url_parse : string -> option url) (ssi_header : obj -> option bool) (uri_ok : string -> bool)
      (jwk_ok : obj -> bool) (jwe_encrypt : obj -> obj -> obj -> res string) (jwe_open : string -> res string)
      (lower sign : string -> string) (now : Z)
      (to_der : cert -> res string) (c : cert) (s : signer key) (alg : string) (k : obj) (public : url) (encrypted : bool) (a : adapter)
      (nonce : option string) (fresh id : uuid) (m1 : store) (answer : obj) (query : string)
      (http : http_client) (endpoint : url) (credentials : list credential) (p : params),
    (* the verifier *)
    app_new url_parse to_der c s k public encrypted = Ok a -> (id < 2 ^ 128)%N ->
    sg_alg s = Ok alg -> utf8_valid alg = true ->
    (forall certs h, x5c_header alg certs = JObj h -> ssi_header h = Some true) ->
    (forall d, certified c d -> utf8_valid d = true) -> (forall n, nonce = Some n -> utf8_valid n = true) ->
    jwf (JObj k) = true -> jdepth (JObj k) <= 100 ->
    (encrypted = true ->
       text_at "crv" k "P-256"
       /\ forall pub, same_material k pub ->
            jwk_ok pub = true
            /\ forall header claims, exists jwe, jwe_encrypt header claims pub = Ok jwe /\ utf8_valid jwe = true
                 /\ jwe_open jwe = Ok (jprint (JObj claims))) ->
    (* asked to initiate a presentation *)
    serves url_parse jwe_open a (HInitiate nonce fresh id) [] m1 (RJson 200 (JObj answer)) ->
    (* the network *)
    (forall segment r, In segment ["request"; "response"] -> at_session public segment id r ->
       utf8_valid (url_str r) = true /\ url_parse (url_str r) = Some r /\ uri_ok (url_str r) = true) ->
    (forall request response, at_session public "request" id request -> at_session public "response" id response ->
       relays url_parse jwe_open a id request response m1 http) ->
    (* the wallet, called with the parameters of the authorization URL *)
    (forall w, url_parse conformance_wallet = Some w -> url_parse (url_str w) = Some endpoint) ->
    u_query endpoint = None -> u_frag endpoint = None ->
    text_at "authorization_url" answer (url_str endpoint +:+ "?" +:+ query) -> param_pairs p = form_parse query ->
    clock_ok now -> (forall x, In x credentials -> utf8_valid (mc_raw x) = true) ->
    (exists x, In x credentials /\ is_pid x) ->
    let run := authorize url_parse ssi_header uri_ok jwk_ok jwe_encrypt lower sign now http endpoint credentials true p in
    exists response body jwt status info,
      at_session public "response" id response
      /\ posts (http_events (fst run)) = [wallet_post response body] /\ snd run = Ok None /\ says_success status info
      /\ let requests := [HInitiate nonce fresh id; HRequest (uuid_str id); HResponse (uuid_str id) body; HStatus (uuid_str id)] in
         let answers := [RJson 200 (JObj answer); RJwt jwt; RJson 200 (JObj []); RJson 200 status] in
         forall (others : strategy) (turns : list bool),
           (forall h, In h (pt_sent (wo_second (game url_parse jwe_open a nobody others turns))) -> about h <> Some id) ->
           20 <= own_turns turns ->
           replies (pt_log (wo_first (game url_parse jwe_open a (patient requests) others turns))) = combine requests answers.
Proof. exact c130_presentation_pf. Qed.
Print Assumptions c130_presentation.

Example c130_presentation_witness : forall enc : bool,
  exists response body, posts (http_events (fst (pair_run enc))) = [wallet_post response body] /\ snd (pair_run enc) = Ok None
    /\ length (replies (pt_log (wo_first (game simple_parse pair_open (pair_adapter enc)
         (patient [HInitiate (Some "n") 1%N 7%N; HRequest (uuid_str 7%N); HResponse (uuid_str 7%N) body; HStatus (uuid_str 7%N)]) pest (by_turns 20))))) = 4.
Proof. exact c130_presentation_ex. Qed.
