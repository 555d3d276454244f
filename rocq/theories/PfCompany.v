From Coq Require Import Lia ZArith.
From Verif Require Import Base BaseFacts Utf8 Utf8Facts Json JsonFacts JsonText JsonTextFacts Base64 Base64Facts Sha256 Serde Url UrlEncoded UrlEncodedFacts
  Object Formats Params Metadata Dcql Effects Jwt Request Response Session X509 SpecCert CertFacts Client Builder Server Jwe ExMatcher ExWallet ExVerifier.
From Verif Require Import MapFacts Spec SpecObject SpecRequest PfRequest PfResolve SpecResponse PfResponse SpecJwe PfJwe SpecBuilder SpecSession SpecServer StoreFacts
  PfBuilder UuidFacts PfSession PfServer PfClient SpecExample PfExample SpecVerifierEx PfExServer PfExInitiate PfText PfInterop.
From Verif Require Import RandomId SpecRandomId PfRandomId SpecGuess PfGuess SpecExHistory SpecExAtomic SpecConverge PfExHistory PfExAtomic PfConverge SpecCompany.

(** How many actions a program takes when run alone. *)
Fixpoint actions {A} (v : session -> auth_response -> outcome) (p : prog A) (m : store) : nat :=
  match p with
  | Done _ => 0
  | Initiate s k => let (m', x) := initiate false s m in S (actions v (k x) m')
  | Update u st k => let (m', x) := update_status false u st m in S (actions v (k x) m')
  | Get u k => S (actions v (k (get_session false u m)) m)
  | Remove u k => let (m', x) := remove_session false u m in S (actions v (k x) m')
  | Validate s r k => S (actions v (k (v s r)) m)
  end.

Section S.
Variable up : string -> option url.
Variable op : string -> res string.
Variable a : adapter.
Notation v := (app_validator op).

Lemma handler_actions h m : actions v (handler up a h) m <= 3.
Proof.
  assert (P : forall A B (f : res A -> B) (p : prog A) m, actions v (pfinish f p) m = actions v p m).
  { intros A B f p. induction p as [r|s k IH|u st k IH|u k IH|u k IH|s r k IH]; intros m0; cbn [actions pfinish]; auto.
    - destruct (initiate false s m0). now rewrite IH.
    - destruct (update_status false u st m0). now rewrite IH.
    - destruct (remove_session false u m0). now rewrite IH. }
  destruct h as [n f id|sid|sid body|sid]; cbn [handler].
  - unfold initiate_request. rewrite P. unfold build_code. destruct (rb_prepare up (initiate_builder a n f) id (ap_wallet a)) as [[s d]|e]; cbn [actions]; [|lia].
    destruct (initiate false s m). destruct r; cbn [actions]; lia.
  - unfold get_request_object. destruct (uuid_of_string sid) as [u|]; [|cbn; lia]. rewrite P. unfold retrieve_code. cbn [actions].
    destruct (get_session false u m) as [s|e]; cbn [actions]; [|lia]. destruct (status_lt (s_status s) SentRequest); cbn [actions]; [|lia].
    destruct (update_status false u SentRequest m). cbn [actions]. lia.
  - unfold receive_response. destruct (utf8_valid body); [|cbn; lia]. destruct (uuid_of_string sid) as [u|]; [|cbn; lia].
    destruct (from_form body) as [x|e]; [|cbn; lia]. rewrite P. unfold verify_code. cbn [actions].
    destruct (get_session false u m) as [s|e]; cbn [actions]; [|lia]. destruct (update_status false u (Complete (v s x)) m). cbn [actions]. lia.
  - unfold get_status. destruct (uuid_of_string sid) as [u|]; [|cbn; lia]. rewrite P. unfold poll_code. cbn [actions].
    destruct (get_session false u m); cbn [actions]; lia.
Qed.

(** The patient party alone. *)
Definition turn_of (script : list hreq) (x : store * party) : store * party := play up op a (patient script 0 (snd x)) (snd x) (fst x).
Fixpoint alone (script : list hreq) (k : nat) (x : store * party) : store * party :=
  match k with 0 => x | S k => alone script k (turn_of script x) end.
Lemma alone_add script j : forall k x, alone script (j + k) x = alone script k (alone script j x).
Proof. induction j as [|j IH]; intros k x; [reflexivity|]. cbn [Nat.add alone]. apply IH. Qed.
Lemma alone_last script k x : alone script (S k) x = turn_of script (alone script k x).
Proof. replace (S k) with (k + 1) by lia. now rewrite alone_add. Qed.
Lemma game_alone script turns : let x := game up op a (patient script) nobody turns in
  (wo_store x, wo_first x) = alone script (own_turns turns) ([], newcomer).
Proof.
  induction turns as [|[|] turns IH]; cbn [game own_turns filter length].
  - reflexivity.
  - change (length (filter (fun t : bool => t) turns)) with (own_turns turns). rewrite alone_last, <- IH. unfold turn_of. cbn [fst snd].
    change (patient script (length turns)) with (patient script 0).
    destruct (play up op a (patient script 0 (wo_first (game up op a (patient script) nobody turns))) (wo_first (game up op a (patient script) nobody turns))
      (wo_store (game up op a (patient script) nobody turns))) as [m p]. reflexivity.
  - change (length (filter (fun t : bool => t) turns)) with (own_turns turns). unfold nobody. cbn [play]. exact IH.
Qed.

(** One request, once sent. *)
Lemma replies_more h e l : replies ((h, e) :: l) = replies l ++ match e with HReply r => [(h, r)] | HDoes _ => [] end.
Proof. unfold replies. cbn [rev]. rewrite flat_map_app. cbn [flat_map snd fst]. destruct e; reflexivity. Qed.
Lemma handled script h (q : prog reply) : forall m m' j r sent l, run false v q m = (m', j, Ok r) ->
  exists l', alone script (S (actions v q m)) (m, mk_party sent [(h, q)] l) = (m', mk_party sent [] l') /\ replies l' = replies l ++ [(h, r)].
Proof.
  induction q as [r0|s k IH|u st k IH|u k IH|u k IH|s x k IH]; intros m m' j r sent l R; cbn [run] in R; cbn [actions].
  - injection R as <- _ ->. eexists. split; [reflexivity|]. apply replies_more.
  - destruct (initiate false s m) as [m1 y] eqn:E. specialize (IH y m1 m' j r sent ((h, HDoes (EvInitiate s y)) :: l) R).
    destruct IH as (l' & A & B). exists l'. split; [|rewrite B, replies_more, app_nil_r; reflexivity].
    cbn [alone] in A |- *. rewrite <- A. f_equal. unfold turn_of at 2, patient. cbn [snd fst pt_tasks play nth_error next]. rewrite E. reflexivity.
  - destruct (update_status false u st m) as [m1 y] eqn:E. specialize (IH y m1 m' j r sent ((h, HDoes (EvUpdate u st y)) :: l) R).
    destruct IH as (l' & A & B). exists l'. split; [|rewrite B, replies_more, app_nil_r; reflexivity].
    cbn [alone] in A |- *. rewrite <- A. f_equal. unfold turn_of at 2, patient. cbn [snd fst pt_tasks play nth_error next]. rewrite E. reflexivity.
  - specialize (IH (get_session false u m) m m' j r sent ((h, HDoes (EvGet u (get_session false u m))) :: l) R).
    destruct IH as (l' & A & B). exists l'. split; [|rewrite B, replies_more, app_nil_r; reflexivity]. exact A.
  - destruct (remove_session false u m) as [m1 y] eqn:E. specialize (IH y m1 m' j r sent ((h, HDoes (EvRemove u y)) :: l) R).
    destruct IH as (l' & A & B). exists l'. split; [|rewrite B, replies_more, app_nil_r; reflexivity].
    cbn [alone] in A |- *. rewrite <- A. f_equal. unfold turn_of at 2, patient. cbn [snd fst pt_tasks play nth_error next]. rewrite E. reflexivity.
  - destruct (run false v (k (v s x)) m) as [[m1 j1] r1] eqn:E. injection R as <- _ ->.
    specialize (IH (v s x) m m1 j1 r sent ((h, HDoes (EvValidate s x (v s x))) :: l) E).
    destruct IH as (l' & A & B). exists l'. split; [|rewrite B, replies_more, app_nil_r; reflexivity]. exact A.
Qed.
Lemma turn_length l m : in_turn up op a l m -> length (rev (map fst l)) = length l.
Proof. intros _. now rewrite rev_length, map_length. Qed.
(** All of them. *)
Lemma patient_serves rest : forall l m, in_turn up op a l m -> let script := rev (map fst l) ++ rest in
  exists k sent l', k <= 5 * length l /\ alone script k ([], newcomer) = (m, mk_party sent [] l') /\ length sent = length l /\ replies l' = rev l.
Proof.
  intros l m T. revert rest. induction T as [|l m h m' j r T IH R]; intros rest.
  - exists 0, [], []. repeat split. lia.
  - cbn [map fst rev]. rewrite <- app_assoc. cbn [app]. destruct (IH (h :: rest)) as (k & sent & l' & B & A & L & E). set (script := rev (map fst l) ++ h :: rest) in *.
    destruct (handled script h (handler up a h) m m' j r (h :: sent) l' R) as (l2 & A2 & E2).
    exists (k + S (S (actions v (handler up a h) m))), (h :: sent), l2. split; [|split; [|split]].
    + pose proof (handler_actions h m). cbn [length]. lia.
    + rewrite alone_add, A. cbn [alone]. rewrite <- A2. cbn [alone]. f_equal. f_equal. unfold turn_of, patient. cbn [snd fst pt_tasks pt_sent].
      rewrite L. unfold script. rewrite nth_error_app2; rewrite (turn_length l m T); [|lia]. rewrite Nat.sub_diag. reflexivity.
    + cbn [length]. now rewrite L.
    + now rewrite E2, E.
Qed.
Lemma patient_rests script m sent l k : length script <= length sent -> alone script k (m, mk_party sent [] l) = (m, mk_party sent [] l).
Proof.
  intros L. induction k as [|k IH]; [reflexivity|]. cbn [alone]. unfold turn_of, patient. cbn [snd fst pt_tasks pt_sent].
  rewrite (proj2 (nth_error_None script (length sent)) L). exact IH.
Qed.
Lemma patient_keeps u script : Forall (fun h => about h = Some u) script -> keeps_to u (patient script).
Proof.
  intros F n p h w. unfold patient. destruct (pt_tasks p); [|discriminate]. destruct (nth_error script (length (pt_sent p))) as [h'|] eqn:E; [|discriminate].
  intros H A. injection H as <-. rewrite Forall_forall in F. specialize (F h' (nth_error_In _ _ E)). congruence.
Qed.
End S.

(** C130: a party that sends its requests about a session one after the other gets the answers it would get from a server used by nobody else,
    whatever others, who do not name that session, do in between: five turns for each request are enough, and what is kept about the session is
    the same too. *)
Lemma c130_undisturbed_pf :
  forall (url_parse : string -> option url) (jwe_open : string -> res string) (a : adapter) (u : uuid) (l : list (hreq * reply)) (m : store)
         (others : strategy) (turns : list bool),
    in_turn url_parse jwe_open a l m -> Forall (fun h => about h = Some u) (map fst l) ->
    (forall h, In h (pt_sent (wo_second (game url_parse jwe_open a nobody others turns))) -> about h <> Some u) ->
    5 * length l <= own_turns turns ->
    let x := game url_parse jwe_open a (patient (rev (map fst l))) others turns in
    replies (pt_log (wo_first x)) = rev l /\ pt_tasks (wo_first x) = [] /\ st_get u (wo_store x) = st_get u m.
Proof.
  intros up op a u l m others turns T F N K x. unfold x.
  assert (F' : Forall (fun h => about h = Some u) (rev (map fst l))) by now apply Forall_rev.
  destruct (c127_apart_pf up op a u _ others turns (patient_keeps u _ F') N) as (_ & -> & ->).
  destruct (patient_serves up op a [] l m T) as (k & sent & l' & B & A & L & E). rewrite app_nil_r in A.
  pose proof (game_alone up op a (rev (map fst l)) turns) as G. cbn zeta in G.
  replace (own_turns turns) with (k + (own_turns turns - k)) in G by lia. rewrite alone_add, A, patient_rests in G.
  - injection G as -> ->. cbn [pt_log pt_tasks]. auto.
  - rewrite rev_length, map_length, L. apply le_n.
Qed.

(** C130: with a session whose identifier is drawn at random this fails for at most a fraction of q / 2^122 of the draws when the others send q
    requests. *)
Lemma c130_random_pf :
  forall (url_parse : string -> option url) (jwe_open : string -> res string) (a : adapter) (story : N -> list (hreq * reply)) (left : N -> store)
         (others : strategy) (turns : list bool) (words : list N),
    (forall w, word w -> in_turn url_parse jwe_open a (story w) (left w) /\ Forall (fun h => about h = Some (new_v4 w)) (map fst (story w))
               /\ 5 * length (story w) <= own_turns turns) ->
    NoDup words ->
    (forall w, In w words -> word w
       /\ replies (pt_log (wo_first (game url_parse jwe_open a (patient (rev (map fst (story w)))) others turns))) <> rev (story w)) ->
    (count words * 2 ^ 122 <= count (pt_sent (wo_second (game url_parse jwe_open a nobody others turns))) * 2 ^ 128)%N.
Proof.
  intros up op a story left others turns words H Nd W.
  apply (c127_stranger_pf up op a (fun w => if (w <? 2 ^ 128)%N then patient (rev (map fst (story w))) else nobody) others turns words).
  - intros w. destruct (w <? 2 ^ 128)%N eqn:Lw; [|intros n p h v E; discriminate E]. apply N.ltb_lt in Lw. apply patient_keeps. apply Forall_rev. apply (H w Lw).
  - exact Nd.
  - intros w I. destruct (W w I) as [Hw Ne]. split; [exact Hw|]. rewrite (proj2 (N.ltb_lt w (2 ^ 128)) Hw). intros x (_ & Q & _). apply Ne. unfold x in Q. rewrite Q.
    destruct (H w Hw) as (T & F & K).
    assert (N0 : forall h, In h (pt_sent (wo_second (game up op a nobody nobody turns))) -> about h <> Some (new_v4 w)).
    { intros h J. exfalso. clear - J. induction turns as [|[|] t IH]; cbn [game] in J; [exact J| |]; unfold nobody in J; cbn [play wo_second] in J; exact (IH J). }
    exact (proj1 (c130_undisturbed_pf up op a (new_v4 w) (story w) (left w) nobody turns T F N0 K)).
Qed.

(** C130: so a presentation between the two examples ends as in C79 whatever others do meanwhile: the verifier, asked to start it, for the request
    object, with the wallet's response and for the status, one after the other, answers with the authorization URL, with the request object, with
    200 and with success, among any others who do not name the session. *)
Lemma c130_presentation_pf
  : forall (key : Type) (url_parse : string -> option url) (ssi_header : obj -> option bool) (uri_ok : string -> bool)
      (jwk_ok : obj -> bool) (jwe_encrypt : obj -> obj -> obj -> res string) (jwe_open : string -> res string)
      (lower sign : string -> string) (now : Z)
      (to_der : cert -> res string) (c : cert) (s : signer key) (alg : string) (k : obj) (public : url) (encrypted : bool) (a : adapter)
      (nonce : option string) (fresh id : uuid) (m1 : store) (answer : obj) (query : string)
      (http : http_client) (endpoint : url) (credentials : list credential) (p : params),
    (* the verifier *)
    app_new url_parse to_der c s k public encrypted = Ok a -> (id < 2 ^ 128)%N ->
    sg_alg s = Ok alg -> utf8_valid alg = true ->
    (forall certs h, x5c_header alg certs = JObj h -> ssi_header h = Some true) ->
    (forall d, certified c d -> utf8_valid d = true) -> (forall n, nonce = Some n -> utf8_valid n = true) ->
    jwf (JObj k) = true -> jdepth (JObj k) <= 100 ->
    (encrypted = true ->
       text_at "crv" k "P-256"
       /\ forall pub, same_material k pub ->
            jwk_ok pub = true
            /\ forall header claims, exists jwe, jwe_encrypt header claims pub = Ok jwe /\ utf8_valid jwe = true
                 /\ jwe_open jwe = Ok (jprint (JObj claims))) ->
    (* asked to initiate a presentation *)
    serves url_parse jwe_open a (HInitiate nonce fresh id) [] m1 (RJson 200 (JObj answer)) ->
    (* the network *)
    (forall segment r, In segment ["request"; "response"] -> at_session public segment id r ->
       utf8_valid (url_str r) = true /\ url_parse (url_str r) = Some r /\ uri_ok (url_str r) = true) ->
    (forall request response, at_session public "request" id request -> at_session public "response" id response ->
       relays url_parse jwe_open a id request response m1 http) ->
    (* the wallet, called with the parameters of the authorization URL *)
    (forall w, url_parse conformance_wallet = Some w -> url_parse (url_str w) = Some endpoint) ->
    u_query endpoint = None -> u_frag endpoint = None ->
    text_at "authorization_url" answer (url_str endpoint +:+ "?" +:+ query) -> param_pairs p = form_parse query ->
    clock_ok now -> (forall x, In x credentials -> utf8_valid (mc_raw x) = true) ->
    (exists x, In x credentials /\ is_pid x) ->
    let run := authorize url_parse ssi_header uri_ok jwk_ok jwe_encrypt lower sign now http endpoint credentials true p in
    exists response body jwt status info,
      at_session public "response" id response
      /\ posts (http_events (fst run)) = [wallet_post response body] /\ snd run = Ok None /\ says_success status info
      /\ let requests := [HInitiate nonce fresh id; HRequest (uuid_str id); HResponse (uuid_str id) body; HStatus (uuid_str id)] in
         let answers := [RJson 200 (JObj answer); RJwt jwt; RJson 200 (JObj []); RJson 200 status] in
         forall (others : strategy) (turns : list bool),
           (forall h, In h (pt_sent (wo_second (game url_parse jwe_open a nobody others turns))) -> about h <> Some id) ->
           20 <= own_turns turns ->
           replies (pt_log (wo_first (game url_parse jwe_open a (patient requests) others turns))) = combine requests answers.
Proof.
  intros key up sh uo jo je jop lower sign now td c sg alg k public enc a nonce fresh id m1 answer query http endpoint creds p
    H1 H2 H3 H4 H5 H6 H7 H8 H9 H10 H11 H12 H13 H14 H15 H16 H17 H18 H19 H20 H21.
  destruct (c79_interop_pf key up sh uo jo je jop lower sign now td c sg alg k public enc a nonce fresh id [] m1 answer query http endpoint creds p
    H1 H2 H3 H4 H5 H6 H7 H8 H9 H10 H11 H12 H13 H14 H15 H16 H17 H18 H19 H20 H21)
    as (response & body & m2 & jwt & m3 & status & info & A & P & R & (c1 & S1) & (c2 & S2) & (c3 & S3) & Q & _).
  destruct H11 as (c0 & S0). exists response, body, jwt, status, info. split; [exact A|]. split; [exact P|]. split; [exact R|]. split; [exact Q|].
  cbv zeta. intros others turns N K.
  pose (l := [(HStatus (uuid_str id), RJson 200 status); (HResponse (uuid_str id) body, RJson 200 (JObj [])); (HRequest (uuid_str id), RJwt jwt); (HInitiate nonce fresh id, RJson 200 (JObj answer))]).
  assert (T : in_turn up jop a l m3).
  { eapply turn_more; [|exact S3]. eapply turn_more; [|exact S2]. eapply turn_more; [|exact S1]. eapply turn_more; [apply turn_none|exact S0]. }
  assert (F : Forall (fun h => about h = Some id) (map fst l)).
  { assert (U : uuid_of_string (uuid_str id) = Some id) by now apply uuid_back.
    unfold l. cbn [map fst]. constructor; [exact U|]. constructor; [exact U|]. constructor; [exact U|]. constructor; [reflexivity|constructor]. }
  exact (proj1 (c130_undisturbed_pf up jop a id l m3 others turns T F N K)).
Qed.

(** Examples: somebody who asks for the status of another session all the time. *)
Definition pest : strategy := fun n p => if Nat.eqb (Nat.modulo n 6) 1 then Send (HStatus (uuid_str 8%N)) else Proceed 0 false.
Lemma sent_by up op a second turns h : In h (pt_sent (wo_second (game up op a nobody second turns))) -> exists n p, second n p = Send h.
Proof.
  induction turns as [|[|] t IH]; cbn [game].
  - intros [].
  - unfold nobody. cbn [play wo_second]. exact IH.
  - set (x := game up op a nobody second t) in *. destruct (second (length t) (wo_second x)) as [h'|i c|i|] eqn:E; cbn [play].
    + cbn [wo_second pt_sent]. intros [->|I]; [eauto|exact (IH I)].
    + destruct (nth_error (pt_tasks (wo_second x)) i) as [[h' q]|]; [|cbn [wo_second]; exact IH].
      destruct (next op c q (wo_store x)) as [[[m' r] e]|]; cbn [wo_second pt_sent]; exact IH.
    + cbn [wo_second pt_sent]. exact IH.
    + cbn [wo_second]. exact IH.
Qed.
Lemma pest_apart up op a turns h : In h (pt_sent (wo_second (game up op a nobody pest turns))) -> about h <> Some 7%N.
Proof.
  intros I. apply sent_by in I. destruct I as (n & p & E). unfold pest in E. destruct (Nat.eqb (Nat.modulo n 6) 1); [|discriminate E]. injection E as <-.
  cbn [about]. rewrite uuid_back by reflexivity. discriminate.
Qed.
Definition by_turns (n : nat) : list bool := concat (repeat [false; true] n).
Example c130_undisturbed_ex :
  exists l m, in_turn simple_parse toy_open xa l m /\ Forall (fun h => about h = Some 7%N) (map fst l) /\ length l = 3
    /\ (forall h, In h (pt_sent (wo_second (game simple_parse toy_open xa nobody pest (by_turns 15)))) -> about h <> Some 7%N)
    /\ 5 * length l <= own_turns (by_turns 15)
    /\ length (pt_sent (wo_second (game simple_parse toy_open xa nobody pest (by_turns 15)))) = 5
    /\ length (replies (pt_log (wo_second (game simple_parse toy_open xa nobody pest (by_turns 15))))) = 5.
Proof.
  destruct x_twice as (s & j & _ & T). eexists _, _. split; [exact T|]. cbn [map fst length]. split; [|split; [reflexivity|]].
  - constructor; [exact toy_sid_is|]. constructor; [exact toy_sid_is|]. constructor; [reflexivity|constructor].
  - split; [intros h; apply pest_apart|]. split; [apply Nat.leb_le; vm_compute; reflexivity|]. split; vm_compute; reflexivity.
Qed.
Definition meddler : strategy := fun n p => match n with 0 => Send (HInitiate (Some "nonce") 1%N (new_v4 5)) | _ => Proceed 0 false end.
Definition asking_story (w : N) : list (hreq * reply) := [(HStatus (uuid_str (new_v4 w)), RError 404)].
Example c130_random_ex :
  (forall w, word w -> in_turn simple_parse toy_open xa (asking_story w) [] /\ Forall (fun h => about h = Some (new_v4 w)) (map fst (asking_story w))
             /\ 5 * length (asking_story w) <= own_turns (repeat true 5 ++ repeat false 5))
  /\ word 5
  /\ map snd (replies (pt_log (wo_first (game simple_parse toy_open xa (patient (rev (map fst (asking_story 6)))) meddler (repeat true 5 ++ repeat false 5))))) = [RError 404]
  /\ map snd (replies (pt_log (wo_first (game simple_parse toy_open xa (patient (rev (map fst (asking_story 5)))) meddler (repeat true 5 ++ repeat false 5))))) <> [RError 404].
Proof.
  split; [|split; [reflexivity|]].
  - intros w W. assert (U : uuid_of_string (uuid_str (new_v4 w)) = Some (new_v4 w)) by (apply uuid_back, new_v4_word). split; [|split].
    + eapply turn_more; [apply turn_none|]. cbn [handler]. unfold get_status. rewrite U. reflexivity.
    + constructor; [exact U|constructor].
    + apply Nat.leb_le. reflexivity.
  - split; [vm_compute; reflexivity|].
    assert (E : match map snd (replies (pt_log (wo_first (game simple_parse toy_open xa (patient (rev (map fst (asking_story 5)))) meddler (repeat true 5 ++ repeat false 5))))) with
                | [RJson _ _] => true | _ => false end = true) by (vm_compute; reflexivity).
    intros Q. rewrite Q in E. discriminate E.
Qed.
Example c130_presentation_ex : forall enc : bool,
  exists response body, posts (http_events (fst (pair_run enc))) = [wallet_post response body] /\ snd (pair_run enc) = Ok None
    /\ length (replies (pt_log (wo_first (game simple_parse pair_open (pair_adapter enc)
         (patient [HInitiate (Some "n") 1%N 7%N; HRequest (uuid_str 7%N); HResponse (uuid_str 7%N) body; HStatus (uuid_str 7%N)]) pest (by_turns 20))))) = 4.
Proof.
  intros enc.
  assert (Pn : pair_new enc = Ok (pair_adapter enc)).
  { assert (O : is_ok (pair_new enc) = true) by (destruct enc; vm_compute; reflexivity).
    unfold pair_adapter. destruct (pair_new enc); [reflexivity|discriminate O]. }
  assert (In0 : exists calls ans, run false (app_validator pair_open) (handler simple_parse (pair_adapter enc) (HInitiate (Some "n") 1%N 7%N)) []
                              = (pair_store enc, calls, Ok (RJson 200 (JObj ans)))
      /\ text_at "authorization_url" ans (url_str pair_endpoint +:+ "?" +:+ form_serialize (param_pairs pair_params))).
  { assert (X : snd (pair_serve enc (HInitiate (Some "n") 1%N 7%N) []) = Ok (RJson 200 (JObj pair_answer))) by (destruct enc; vm_compute; reflexivity).
    unfold pair_store. unfold pair_serve in *.
    destruct (run false (app_validator pair_open) (handler simple_parse (pair_adapter enc) (HInitiate (Some "n") 1%N 7%N)) []) as [[m' calls] r].
    cbn [fst snd] in *. subst r. exists calls, pair_answer. split; reflexivity. }
  destruct In0 as (calls & ans & I0 & U0).
  assert (Ns : forall seg r, In seg ["request"; "response"] -> at_session (toy_url "https://v.example/") seg 7%N r ->
     utf8_valid (url_str r) = true /\ simple_parse (url_str r) = Some r /\ true = true).
  { intros seg r Hs A.
    assert (X : exists r0, push_segment (mk_url "https" (Some "v.example") ("/" +:+ seg) false None None) (uuid_str 7%N) = Ok r0
       /\ utf8_valid (url_str r0) = true /\ simple_parse (url_str r0) = Some r0).
    { destruct Hs as [<-|[<-|[]]]; eexists; (split; [reflexivity|]); vm_compute; split; reflexivity. }
    destruct X as (r0 & X0 & X1 & X2). assert (r = r0); [|subst; auto].
    eapply at_session_unique; [exact A|]. eexists. split; [apply join_sibling; reflexivity|]. apply push_iff. exact X0. }
  destruct (c130_presentation_pf _ simple_parse (fun _ => Some true) (fun _ => true) (fun _ => true) pair_encrypt pair_open (fun s => s) (fun _ => "S") 5
     _ _ _ "ES256" _ _ enc (pair_adapter enc) (Some "n") 1%N 7%N (pair_store enc) ans (form_serialize (param_pairs pair_params)) (pair_http enc) pair_endpoint [pair_credential] pair_params Pn)
    as (response & body & jwt & status & info & _ & X & Y & _ & Z).
  - reflexivity.
  - reflexivity.
  - reflexivity.
  - reflexivity.
  - intros d D. apply certified_iff in D. destruct D as [<-|[]]. reflexivity.
  - intros n [= <-]. reflexivity.
  - reflexivity.
  - apply Nat.leb_le. vm_compute. reflexivity.
  - intros _. split; [reflexivity|]. intros pub _. split; [reflexivity|]. intros h cl. eexists. split; [reflexivity|]. split; [apply b64_utf8|].
    unfold pair_open. now rewrite b64url_rt.
  - exists calls. exact I0.
  - exact Ns.
  - intros rq rs _ _. unfold relays, serves.
    destruct (run false (app_validator pair_open) (handler simple_parse (pair_adapter enc) (HRequest (uuid_str 7%N))) (pair_store enc)) as [[m2 cs] r2] eqn:E2.
    assert (R2 : exists r, r2 = Ok r).
    { cbn [handler] in E2. unfold get_request_object in E2. rewrite uuid_back, run_pfinish in E2 by reflexivity.
      destruct (run false (app_validator pair_open) (retrieve_code 7%N) (pair_store enc)) as [[? ?] ?]. injection E2 as _ _ <-. eauto. }
    destruct R2 as (r & ->). exists m2, r. split; [eauto|]. unfold pair_http, pair_serve. rewrite E2.
    assert (C : forall x r, x = carried (Ok r) -> carries x r) by (intros x y ->; destruct y; cbn; eauto).
    split.
    + intros rq0 -> _. apply C. reflexivity.
    + intros rq0 m3 r3 -> _ (cs3 & E3). rewrite E3. apply C. reflexivity.
  - intros w W. vm_compute in W. injection W as <-. vm_compute. reflexivity.
  - reflexivity.
  - reflexivity.
  - exact U0.
  - vm_compute. reflexivity.
  - reflexivity.
  - intros x [<-|[]]. reflexivity.
  - exists pair_credential. split; [now left|]. split; reflexivity.
  - exists response, body. split; [exact X|]. split; [exact Y|]. cbv zeta in Z. rewrite (Z pest (by_turns 20)).
    + reflexivity.
    + intros h. apply pest_apart.
    + apply Nat.leb_le. reflexivity.
Qed.
