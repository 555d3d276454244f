From Coq Require Import Lia ZArith.
From Verif Require Import Base BaseFacts Utf8 Json JsonFacts JsonText Serde Url UrlEncoded Object Formats Params Metadata Dcql
  Request Response Session X509 Client Builder Server ExVerifier ExHttp ExWeb.
From Verif Require Import Utf8Facts Spec SpecJsonText GrammarFacts SpecEncodings PfEncodings SpecBuilder SpecSession StoreFacts PfBuilder UuidFacts
  PfSession PfServer SpecVerifierEx PfExServer SpecWeb.

(* ------------------------------------------------------------ paths *)
Lemma unpercent_dec s t : unpercent s t -> percent_dec s = t.
Proof.
  induction 1 as [|h l x y c r t Hh Hl Hc _ IH|r t N _ IH|c r t Nq _ IH].
  - reflexivity.
  - cbn [percent_dec]. change (Ascii.eqb "%" "%") with true. cbv iota. apply unhex_iff in Hh, Hl. rewrite Hh, Hl, IH, <- Hc, chr_byte. reflexivity.
  - cbn [percent_dec]. change (Ascii.eqb "%" "%") with true. cbv iota. destruct r as [|h [|l q]]; [now rewrite IH|now rewrite IH|].
    destruct (unhex h) as [x|] eqn:Hh; [|now rewrite IH]. destruct (unhex l) as [y|] eqn:Hl; [|now rewrite IH]. destruct N. apply escape_follows_iff. eauto.
  - cbn [percent_dec]. apply Ascii.eqb_neq in Nq. now rewrite Nq, IH.
Qed.
Lemma unpercent_total k : forall s, String.length s <= k -> exists t, unpercent s t.
Proof.
  induction k as [|k IH]; intros [|c s] L; try (exists ""; constructor); cbn in L; [lia|].
  destruct (Ascii.eqb_spec c "%") as [->|Nq].
  - destruct s as [|h [|l q]].
    + destruct (IH "" ltac:(cbn; lia)) as (t & U). exists (String "%" t). apply pc_bare; [|exact U]. intros (? & ? & ? & ? & ? & [=] & _).
    + destruct (IH (String h "") ltac:(cbn in *; lia)) as (t & U). exists (String "%" t). apply pc_bare; [|exact U]. intros (? & ? & ? & ? & ? & [=] & _).
    + destruct (unhex h) as [x|] eqn:Hh; [destruct (unhex l) as [y|] eqn:Hl|].
      * destruct (IH q ltac:(cbn in *; lia)) as (t & U). exists (String (chr (16 * x + y)) t). apply unhex_iff in Hh, Hl.
        apply (pc_escape h l x y); auto. apply byte_chr. apply hex_lt in Hh, Hl. lia.
      * destruct (IH (String h (String l q)) ltac:(cbn in *; lia)) as (t & U). exists (String "%" t). apply pc_bare; [|exact U]. intros E. apply escape_follows_iff in E as (? & ? & E1 & E2). congruence.
      * destruct (IH (String h (String l q)) ltac:(cbn in *; lia)) as (t & U). exists (String "%" t). apply pc_bare; [|exact U]. intros E. apply escape_follows_iff in E as (? & ? & E1 & E2). congruence.
  - destruct (IH s ltac:(lia)) as (t & U). exists (String c t). now constructor.
Qed.
Lemma unpercent_iff s t : unpercent s t <-> percent_dec s = t.
Proof.
  split; [apply unpercent_dec|]. intros <-. destruct (unpercent_total _ s (le_n _)) as (t & U). now rewrite (unpercent_dec _ _ U).
Qed.
Lemma without_slash c s : without c s <-> has_char c s = false.
Proof.
  unfold without, chars. induction s as [|d s IH]; cbn [list_ascii_of_string has_char].
  - split; [reflexivity|intros _ []].
  - rewrite Bool.orb_false_iff, <- IH. split.
    + intros H. split; [apply Ascii.eqb_neq; intros ->; apply H; now left|intros X; apply H; now right].
    + intros [N H] [X|X]; [subst d; now rewrite Ascii.eqb_refl in N|auto].
Qed.
Lemma under_iff e p seg : segment ("/" +:+ e +:+ "/") p = Some seg <-> under e p seg.
Proof.
  unfold segment, under. rewrite without_slash. split.
  - destruct (strip_prefix _ p) as [t|] eqn:S; [|discriminate]. apply strip_prefix_some in S. destruct (String.eqb_spec t ""); [discriminate|].
    cbn [orb]. destruct (has_char "/" t) eqn:H; [discriminate|]. intros [= ->]. split; [|auto]. rewrite S. cbn. now rewrite sapp_assoc.
  - intros (-> & N & H). replace ("/" +:+ e +:+ "/" +:+ seg) with (("/" +:+ e +:+ "/") +:+ seg) by (cbn; now rewrite sapp_assoc).
    rewrite strip_prefix_app. apply String.eqb_neq in N. now rewrite N, H.
Qed.
Lemma seg_request p : segment "/request/" p = segment ("/" +:+ "request" +:+ "/") p. Proof. reflexivity. Qed.
Lemma seg_response p : segment "/response/" p = segment ("/" +:+ "response" +:+ "/") p. Proof. reflexivity. Qed.
Lemma seg_status p : segment "/status/" p = segment ("/" +:+ "status" +:+ "/") p. Proof. reflexivity. Qed.
Lemma under_fun e p s1 s2 : under e p s1 -> under e p s2 -> s1 = s2.
Proof. intros H1 H2. apply under_iff in H1, H2. congruence. Qed.

(** The five places there are. *)
Inductive place := PInitiate | PHealth | PRequest (seg : string) | PResponse (seg : string) | PStatus (seg : string) | PNowhere.
Definition at_place (p : string) (x : place) : Prop :=
  match x with
  | PInitiate => p = "/initiate"
  | PHealth => p = "/health"
  | PRequest seg => under "request" p seg
  | PResponse seg => under "response" p seg
  | PStatus seg => under "status" p seg
  | PNowhere => p <> "/initiate" /\ p <> "/health" /\ ~ has_segment "request" p /\ ~ has_segment "response" p /\ ~ has_segment "status" p
  end.
Lemma no_segment e p : segment ("/" +:+ e +:+ "/") p = None -> ~ has_segment e p.
Proof. intros H (seg & U). apply under_iff in U. congruence. Qed.
Definition place_of (p : string) : place :=
  if String.eqb p "/initiate" then PInitiate else if String.eqb p "/health" then PHealth
  else match segment "/request/" p with
  | Some s => PRequest s
  | None => match segment "/response/" p with
  | Some s => PResponse s
  | None => match segment "/status/" p with Some s => PStatus s | None => PNowhere end end end.
Lemma place_is p : at_place p (place_of p).
Proof.
  unfold place_of. rewrite seg_request, seg_response, seg_status.
  destruct (String.eqb_spec p "/initiate"); [assumption|]. destruct (String.eqb_spec p "/health"); [assumption|].
  destruct (segment ("/" +:+ "request" +:+ "/") p) as [s|] eqn:E1; [now apply under_iff|].
  destruct (segment ("/" +:+ "response" +:+ "/") p) as [s|] eqn:E2; [now apply under_iff|].
  destruct (segment ("/" +:+ "status" +:+ "/") p) as [s|] eqn:E3; [now apply under_iff|].
  split; [assumption|]. split; [assumption|]. split; [now apply no_segment|]. split; now apply no_segment.
Qed.
Lemma place_only p x : at_place p x -> place_of p = x.
Proof.
  destruct x as [| |s|s|s|]; cbn [at_place]; intros H; try (subst p; reflexivity).
  - destruct H as (E & N & W). apply without_slash in W. apply String.eqb_neq in N. subst p. unfold place_of, segment. cbn. now rewrite N, W.
  - destruct H as (E & N & W). apply without_slash in W. apply String.eqb_neq in N. subst p. unfold place_of, segment. cbn. now rewrite N, W.
  - destruct H as (E & N & W). apply without_slash in W. apply String.eqb_neq in N. subst p. unfold place_of, segment. cbn. now rewrite N, W.
  - pose proof (place_is p) as P. destruct (place_of p) as [| |s|s|s|]; cbn [at_place] in P; try reflexivity; exfalso;
      destruct H as (N1 & N2 & N3 & N4 & N5); first [now apply N1|now apply N2|apply N3; eexists; eassumption|apply N4; eexists; eassumption|apply N5; eexists; eassumption].
Qed.
Lemma place_iff p x : at_place p x <-> place_of p = x.
Proof. split; [apply place_only|]. intros <-. apply place_is. Qed.

Section D.
Variable json_type : string -> bool.
Variable read_initiate : string -> initiate_body.
Notation dispatch := (dispatch json_type read_initiate).
Notation to_initiate := (to_initiate json_type read_initiate).
Lemma dispatch_is w : dispatch w =
  if String.eqb (hq_method (w_http w)) "OPTIONS" then Refuse 200 else
  match place_of (hq_path (w_http w)) with
  | PInitiate => if String.eqb (hq_method (w_http w)) "POST" then to_initiate w else Refuse 405
  | PHealth => if is_get (hq_method (w_http w)) then Health else Refuse 405
  | PRequest seg => if is_get (hq_method (w_http w)) then to_session HRequest seg else Refuse 405
  | PResponse seg => if String.eqb (hq_method (w_http w)) "POST" then to_response (w_http w) seg else Refuse 405
  | PStatus seg => if is_get (hq_method (w_http w)) then to_session HStatus seg else Refuse 405
  | PNowhere => Refuse 404
  end.
Proof.
  unfold dispatch, place_of. destruct (String.eqb (hq_method (w_http w)) "OPTIONS"); [reflexivity|].
  destruct (String.eqb (hq_path (w_http w)) "/initiate"); [reflexivity|]. destruct (String.eqb (hq_path (w_http w)) "/health"); [reflexivity|].
  destruct (segment "/request/" _); [reflexivity|]. destruct (segment "/response/" _); [reflexivity|]. destruct (segment "/status/" _); reflexivity.
Qed.
End D.
Lemma is_get_iff m : is_get m = true <-> reads m.
Proof. unfold is_get, reads. rewrite Bool.orb_true_iff, !String.eqb_eq. reflexivity. Qed.
Lemma not_options m : reads m \/ m = "POST" -> String.eqb m "OPTIONS" = false.
Proof. intros [[->| ->]| ->]; reflexivity. Qed.
Lemma fits_iff q : oversized q = false <-> fits q.
Proof. unfold oversized, fits. rewrite N.ltb_ge. reflexivity. Qed.
Lemma param_iff seg sid : path_param seg = Some sid <-> unpercent seg sid /\ exists l, utf8 sid l.
Proof.
  unfold path_param. rewrite unpercent_iff, <- utf8_iff. destruct (utf8_valid (percent_dec seg)) eqn:E; split.
  - intros [= <-]. auto.
  - now intros [-> _].
  - discriminate.
  - intros [<- H]. congruence.
Qed.
Lemma param_none seg : path_param seg = None <-> exists b, unpercent seg b /\ forall l, ~ utf8 b l.
Proof.
  unfold path_param. destruct (utf8_valid (percent_dec seg)) eqn:E; split; try discriminate.
  - intros (b & U & N). apply unpercent_iff in U. subst b. apply utf8_iff in E as (l & E). destruct (N l E).
  - intros _. exists (percent_dec seg). split; [now apply unpercent_iff|]. intros l U. assert (utf8_valid (percent_dec seg) = true) by (apply utf8_iff; eauto). congruence.
  - reflexivity.
Qed.
Lemma names_iff e p sid seg : under e p seg -> (names_session e p sid <-> path_param seg = Some sid).
Proof.
  intros U. rewrite param_iff. split.
  - intros (seg' & l & U' & P & L). rewrite (under_fun _ _ _ _ U U'). eauto.
  - intros (P & l & L). exists seg, l. auto.
Qed.
Lemma garbled_iff e p seg : under e p seg -> (garbled e p <-> path_param seg = None).
Proof.
  intros U. rewrite param_none. split.
  - intros (seg' & b & U' & P). rewrite (under_fun _ _ _ _ U U'). eauto.
  - intros (b & P). exists seg, b. auto.
Qed.
Lemma names_under e p sid : names_session e p sid -> exists seg, under e p seg.
Proof. intros (seg & _ & U & _). eauto. Qed.

(** C105: each handler is called exactly for the requests it is meant for. *)
Lemma c105_routes_pf :
  forall (json_type : string -> bool) (read_initiate : string -> initiate_body) (w : wreq),
    let q := w_http w in
    let goes_to := dispatch json_type read_initiate w in
    (forall sid, goes_to = To (HStatus sid) <-> reads (hq_method q) /\ names_session "status" (hq_path q) sid)
    /\ (forall sid, goes_to = To (HRequest sid) <-> reads (hq_method q) /\ names_session "request" (hq_path q) sid)
    /\ (forall sid body, goes_to = To (HResponse sid body) <->
          hq_method q = "POST" /\ names_session "response" (hq_path q) sid /\ body = hq_body q /\ fits q)
    /\ (forall nonce fresh id, goes_to = To (HInitiate nonce fresh id) <->
          hq_method q = "POST" /\ hq_path q = "/initiate" /\ says_json json_type q /\ fits q
          /\ read_initiate (hq_body q) = Nonce nonce /\ fresh = w_fresh w /\ id = w_id w)
    /\ (goes_to = Health <-> reads (hq_method q) /\ hq_path q = "/health").
Proof.
  intros jt ri w q goes_to. unfold goes_to. clear goes_to. rewrite dispatch_is. fold q.
  assert (S : forall h seg x, to_session h seg = To x <-> exists sid, path_param seg = Some sid /\ x = h sid).
  { intros h seg x. unfold to_session. destruct (path_param seg) as [sid|].
    - split; [intros [= <-]; eauto|]. now intros (? & [= <-] & ->).
    - split; [discriminate|]. now intros (? & ? & ?). }
  assert (R : forall seg x, to_response q seg = To x <-> exists sid, path_param seg = Some sid /\ fits q /\ x = HResponse sid (hq_body q)).
  { intros seg x. unfold to_response. setoid_rewrite <- fits_iff. destruct (path_param seg) as [sid|].
    - destruct (oversized q).
      + split; [discriminate|]. now intros (? & ? & ? & ?).
      + split; [intros [= <-]; eauto|]. now intros (? & [= <-] & _ & ->).
    - split; [discriminate|]. now intros (? & ? & ?). }
  assert (I : forall x, to_initiate jt ri w = To x <-> exists n, says_json jt q /\ fits q /\ ri (hq_body q) = Nonce n /\ x = HInitiate n (w_fresh w) (w_id w)).
  { intros x. unfold to_initiate, says_json. fold q. setoid_rewrite <- fits_iff. destruct (hq_content_type q) as [t|].
    - destruct (jt t) eqn:J.
      + destruct (oversized q); [split; [discriminate|now intros (? & ? & ? & ?)]|]. destruct (ri (hq_body q)) as [n| |].
        * split; [intros [= <-]; eauto 8|]. now intros (? & ? & ? & [= <-] & ->).
        * split; [discriminate|now intros (? & ? & ? & ? & ?)].
        * split; [discriminate|now intros (? & ? & ? & ? & ?)].
      + split; [discriminate|]. intros (? & (? & [= <-] & ?) & _). congruence.
    - split; [discriminate|]. now intros (? & (? & ? & ?) & _). }
  assert (G : forall h, (if String.eqb (hq_method q) "OPTIONS" then Refuse 200 else
     match place_of (hq_path q) with
     | PInitiate => if String.eqb (hq_method q) "POST" then to_initiate jt ri w else Refuse 405
     | PHealth => if is_get (hq_method q) then Health else Refuse 405
     | PRequest seg => if is_get (hq_method q) then to_session HRequest seg else Refuse 405
     | PResponse seg => if String.eqb (hq_method q) "POST" then to_response q seg else Refuse 405
     | PStatus seg => if is_get (hq_method q) then to_session HStatus seg else Refuse 405
     | PNowhere => Refuse 404
     end) = To h <->
     (hq_method q = "POST" /\ hq_path q = "/initiate" /\ exists n, says_json jt q /\ fits q /\ ri (hq_body q) = Nonce n /\ h = HInitiate n (w_fresh w) (w_id w))
     \/ (reads (hq_method q) /\ exists sid, names_session "request" (hq_path q) sid /\ h = HRequest sid)
     \/ (hq_method q = "POST" /\ exists sid, names_session "response" (hq_path q) sid /\ fits q /\ h = HResponse sid (hq_body q))
     \/ (reads (hq_method q) /\ exists sid, names_session "status" (hq_path q) sid /\ h = HStatus sid)).
  { intros h. split.
    - destruct (String.eqb (hq_method q) "OPTIONS"); [discriminate|]. pose proof (place_is (hq_path q)) as P.
      destruct (place_of (hq_path q)) as [| |s|s|s|]; cbn [at_place] in P.
      + destruct (String.eqb_spec (hq_method q) "POST") as [M|]; [|discriminate]. intros H. apply I in H as (n & H). left. eauto 8.
      + destruct (is_get (hq_method q)); discriminate.
      + destruct (is_get (hq_method q)) eqn:M; [|discriminate]. apply is_get_iff in M. intros H. apply S in H as (sid & H & ->). apply (names_iff _ _ _ _ P) in H. right. left. eauto.
      + destruct (String.eqb_spec (hq_method q) "POST") as [M|]; [|discriminate]. intros H. apply R in H as (sid & H & F & ->). apply (names_iff _ _ _ _ P) in H. right. right. left. eauto 6.
      + destruct (is_get (hq_method q)) eqn:M; [|discriminate]. apply is_get_iff in M. intros H. apply S in H as (sid & H & ->). apply (names_iff _ _ _ _ P) in H. right. right. right. eauto.
      + discriminate.
    - intros [(M & P & n & H)|[(M & sid & P & ->)|[(M & sid & P & F & ->)|(M & sid & P & ->)]]].
      + rewrite (not_options _ (or_intror M)), M, P. change (place_of "/initiate") with PInitiate. cbv iota. change (String.eqb "POST" "POST") with true. cbv iota. apply I. eauto.
      + rewrite (not_options _ (or_introl M)). destruct (names_under _ _ _ P) as (seg & U). rewrite (place_only _ (PRequest seg) U). apply is_get_iff in M. rewrite M.
        apply S. exists sid. split; [now apply (names_iff _ _ _ _ U)|reflexivity].
      + rewrite (not_options _ (or_intror M)), M. destruct (names_under _ _ _ P) as (seg & U). rewrite (place_only _ (PResponse seg) U). change (String.eqb "POST" "POST") with true. cbv iota.
        apply R. exists sid. split; [now apply (names_iff _ _ _ _ U)|auto].
      + rewrite (not_options _ (or_introl M)). destruct (names_under _ _ _ P) as (seg & U). rewrite (place_only _ (PStatus seg) U). apply is_get_iff in M. rewrite M.
        apply S. exists sid. split; [now apply (names_iff _ _ _ _ U)|reflexivity]. }
  split; [|split; [|split; [|split]]].
  - intros sid. rewrite G. split.
    + intros [(_ & _ & n & _ & _ & _ & E)|[(_ & s & _ & E)|[(_ & s & _ & _ & E)|(M & s & P & E)]]]; try discriminate. injection E as <-. auto.
    + intros [M P]. right. right. right. eauto.
  - intros sid. rewrite G. split.
    + intros [(_ & _ & n & _ & _ & _ & E)|[(M & s & P & E)|[(_ & s & _ & _ & E)|(_ & s & _ & E)]]]; try discriminate. injection E as <-. auto.
    + intros [M P]. right. left. eauto.
  - intros sid body. rewrite G. split.
    + intros [(_ & _ & n & _ & _ & _ & E)|[(_ & s & _ & E)|[(M & s & P & F & E)|(_ & s & _ & E)]]]; try discriminate. injection E as <- <-. auto.
    + intros (M & P & -> & F). right. right. left. eauto 6.
  - intros nonce fresh id. rewrite G. split.
    + intros [(M & P & n & J & F & N & E)|[(_ & s & _ & E)|[(_ & s & _ & _ & E)|(_ & s & _ & E)]]]; try discriminate. injection E as <- <- <-. auto 8.
    + intros (M & P & J & F & N & -> & ->). left. eauto 8.
  - split.
    + destruct (String.eqb (hq_method q) "OPTIONS"); [discriminate|]. pose proof (place_is (hq_path q)) as P.
      destruct (place_of (hq_path q)) as [| |s|s|s|]; cbn [at_place] in P.
      * unfold to_initiate. destruct (String.eqb (hq_method q) "POST"); [|discriminate]. fold q.
        destruct (match hq_content_type q with Some t => jt t | None => false end); [|discriminate]. destruct (oversized q); [discriminate|]. destruct (ri (hq_body q)); discriminate.
      * destruct (is_get (hq_method q)) eqn:M; [|discriminate]. apply is_get_iff in M. auto.
      * unfold to_session. destruct (is_get (hq_method q)), (path_param s); discriminate.
      * unfold to_response. destruct (String.eqb (hq_method q) "POST"), (path_param s), (oversized q); discriminate.
      * unfold to_session. destruct (is_get (hq_method q)), (path_param s); discriminate.
      * discriminate.
    + intros [M P]. rewrite (not_options _ (or_introl M)), P. change (place_of "/health") with PHealth. cbv iota. apply is_get_iff in M. now rewrite M.
Qed.

Lemma known_iff p : known p <-> place_of p <> PNowhere.
Proof.
  split.
  - intros (m & [([H|(s & H)] & _)|([H|[(s & H)|(s & H)]] & _)]).
    + rewrite (place_only p PInitiate H). discriminate.
    + rewrite (place_only p (PResponse s) H). discriminate.
    + rewrite (place_only p PHealth H). discriminate.
    + rewrite (place_only p (PRequest s) H). discriminate.
    + rewrite (place_only p (PStatus s) H). discriminate.
  - pose proof (place_is p) as P. unfold known, allowed, has_segment, reads. destruct (place_of p) as [| |s|s|s|]; cbn [at_place] in P; intros N.
    + exists "POST". auto.
    + exists "GET". auto 8.
    + exists "GET". right. split; [right; left; eauto|auto].
    + exists "POST". left. split; [right; eauto|auto].
    + exists "GET". right. split; [right; right; eauto|auto].
    + now destruct N.
Qed.
Definition method_for (x : place) (m : string) : bool :=
  match x with PInitiate | PResponse _ => String.eqb m "POST" | PNowhere => false | _ => is_get m end.
Lemma allowed_iff p m : allowed p m <-> method_for (place_of p) m = true.
Proof.
  split.
  - intros [([H|(s & H)] & M)|([H|[(s & H)|(s & H)]] & M)].
    + rewrite (place_only p PInitiate H). now apply String.eqb_eq.
    + rewrite (place_only p (PResponse s) H). now apply String.eqb_eq.
    + rewrite (place_only p PHealth H). now apply is_get_iff.
    + rewrite (place_only p (PRequest s) H). now apply is_get_iff.
    + rewrite (place_only p (PStatus s) H). now apply is_get_iff.
  - pose proof (place_is p) as P. unfold allowed, has_segment. destruct (place_of p) as [| |s|s|s|]; cbn [at_place method_for] in *;
      intros M; try discriminate; first [apply String.eqb_eq in M|apply is_get_iff in M]; eauto 8.
Qed.
Definition unread (p : string) : Prop := garbled "request" p \/ garbled "response" p \/ garbled "status" p.
Lemma unread_iff p : unread p <-> match place_of p with PRequest s | PResponse s | PStatus s => path_param s = None | _ => False end.
Proof.
  split.
  - intros [H|[H|H]]; pose proof H as (s & _ & U & _).
    + rewrite (place_only p (PRequest s) U). now apply (garbled_iff _ _ _ U).
    + rewrite (place_only p (PResponse s) U). now apply (garbled_iff _ _ _ U).
    + rewrite (place_only p (PStatus s) U). now apply (garbled_iff _ _ _ U).
  - pose proof (place_is p) as P. unfold unread. destruct (place_of p) as [| |s|s|s|]; cbn [at_place] in P; try tauto;
      intros H; apply (garbled_iff _ _ _ P) in H; auto.
Qed.
Lemma response_names p : (exists sid, names_session "response" p sid) <-> match place_of p with PResponse s => path_param s <> None | _ => False end.
Proof.
  split.
  - intros (sid & H). destruct (names_under _ _ _ H) as (s & U). rewrite (place_only p (PResponse s) U). apply (names_iff _ _ _ _ U) in H. congruence.
  - pose proof (place_is p) as P. destruct (place_of p) as [| |s|s|s|]; cbn [at_place] in P; try tauto.
    destruct (path_param s) as [sid|] eqn:E; [|congruence]. intros _. exists sid. now apply (names_iff _ _ _ _ P).
Qed.
Lemma initiate_place p : p = "/initiate" <-> place_of p = PInitiate.
Proof. apply (place_iff p PInitiate). Qed.

(** C105: any other request is sent back, with a status code that says why. *)
Lemma c105_refused_pf :
  forall (json_type : string -> bool) (read_initiate : string -> initiate_body) (w : wreq),
    let q := w_http w in
    let m := hq_method q in
    let p := hq_path q in
    let sent_back n := dispatch json_type read_initiate w = Refuse n in
    let initiating := m = "POST" /\ p = "/initiate" in
    (forall n, sent_back n -> In n [200; 400; 404; 405; 413; 415; 422]%N)
    /\ (sent_back 200%N <-> m = "OPTIONS")
    /\ (sent_back 404%N <-> m <> "OPTIONS" /\ ~ known p)
    /\ (sent_back 405%N <-> m <> "OPTIONS" /\ known p /\ ~ allowed p m)
    /\ (sent_back 415%N <-> initiating /\ ~ says_json json_type q)
    /\ (sent_back 413%N <-> ~ fits q /\ (initiating /\ says_json json_type q
                                         \/ m = "POST" /\ exists sid, names_session "response" p sid))
    /\ (sent_back 422%N <-> initiating /\ says_json json_type q /\ fits q /\ read_initiate (hq_body q) = Unsuitable)
    /\ (sent_back 400%N <-> initiating /\ says_json json_type q /\ fits q /\ read_initiate (hq_body q) = Malformed
                            \/ allowed p m /\ (garbled "request" p \/ garbled "response" p \/ garbled "status" p)).
Proof.
  intros jt ri w q m p sent_back initiating.
  assert (J : says_json jt q <-> match hq_content_type q with Some t => jt t | None => false end = true).
  { unfold says_json. destruct (hq_content_type q) as [t|]; split; try discriminate; eauto; intros (t' & E & H); congruence. }
  unfold sent_back, initiating. rewrite dispatch_is. fold q m p. fold (unread p). rewrite unread_iff, response_names, known_iff, allowed_iff, initiate_place, J, <- fits_iff.
  unfold to_initiate, to_session, to_response. fold q.
  destruct (String.eqb_spec m "OPTIONS") as [->|NO].
  - destruct (place_of p) as [| |s|s|s|]; cbn [method_for]; change (String.eqb "OPTIONS" "POST") with false; change (is_get "OPTIONS") with false;
      (split; [intros n [= <-]; cbn; auto|]); repeat split; try discriminate; try tauto; intuition (try discriminate; try congruence).
  - destruct (place_of p) as [| |s|s|s|]; cbn [method_for].
    + destruct (String.eqb_spec m "POST") as [EP|NP].
      * destruct (match hq_content_type q with Some t => jt t | None => false end) eqn:T; [destruct (oversized q) eqn:O; [|destruct (ri (hq_body q)) as [nn| |] eqn:B]|];
        (split; [intros n; try discriminate; intros [= <-]; cbn; tauto|]); intuition (try discriminate; try congruence).
      * (split; [intros n [= <-]; cbn; auto|]); intuition (try discriminate; try congruence).
    + destruct (is_get m); (split; [intros n; try discriminate; intros [= <-]; cbn; tauto|]); intuition (try discriminate; try congruence).
    + destruct (is_get m); [destruct (path_param s) as [sd|] eqn:E|]; (split; [intros n; try discriminate; intros [= <-]; cbn; tauto|]); intuition (try discriminate; try congruence).
    + destruct (String.eqb_spec m "POST") as [EP|NP]; [destruct (path_param s) as [sd|] eqn:E; [destruct (oversized q) eqn:O|]|];
        (split; [intros n; try discriminate; intros [= <-]; cbn; tauto|]); intuition (try discriminate; try congruence).
    + destruct (is_get m); [destruct (path_param s) as [sd|] eqn:E|]; (split; [intros n; try discriminate; intros [= <-]; cbn; tauto|]); intuition (try discriminate; try congruence).
    + (split; [intros n [= <-]; cbn; tauto|]); intuition (try discriminate; try congruence).
Qed.

(* ------------------------------------------------------------ the running server *)
Section Sim.
Variable up : string -> option url.
Variable op : string -> res string.
Variable jt : string -> bool.
Variable ri : string -> initiate_body.
Variable a : adapter.
Notation dispatch := (dispatch jt ri).
Definition reaches (w : wreq) (h : hreq) : Prop := dispatch w = To h.
(** What a request that reaches no handler is answered. *)
Definition turned_away (w : wreq) (x : wanswer) : Prop :=
  dispatch w = Health /\ x = wire (w_http w) (200%N, CJson web_health)
  \/ exists n, dispatch w = Refuse n /\ x = (n, CNone).
Definition sends (w : wreq) (r : res reply) : wanswer :=
  match r with Ok r => wire (w_http w) (answer_of r) | Err _ => (500%N, CNone) end.
Lemma wire_on w r : on_wire (w_http w) r (wire (w_http w) (answer_of r)).
Proof.
  exists (answer_of r). split; [destruct r; reflexivity|]. unfold wire, bare. split.
  - intros H. rewrite H. reflexivity.
  - intros H. apply String.eqb_neq in H. now rewrite H.
Qed.
Inductive wtasks : list (wreq * prog wanswer) -> list (hreq * prog reply) -> Prop :=
| wt_nil : wtasks [] []
| wt_away w x ws hs : turned_away w x -> wtasks ws hs -> wtasks ((w, Done (Ok x)) :: ws) hs
| wt_call w h p ws hs : reaches w h -> wtasks ws hs -> wtasks ((w, pfinish (sends w) p) :: ws) ((h, p) :: hs).
Lemma wtasks_app w1 h1 w2 h2 : wtasks w1 h1 -> wtasks w2 h2 -> wtasks (w1 ++ w2) (h1 ++ h2).
Proof. intros H1 H2. induction H1; cbn; [exact H2|constructor; auto|constructor; auto]. Qed.
Lemma wtasks_split pre w p post hs : wtasks (pre ++ (w, p) :: post) hs ->
  (exists h1 h2 x, hs = h1 ++ h2 /\ wtasks pre h1 /\ wtasks post h2 /\ turned_away w x /\ p = Done (Ok x))
  \/ exists h1 h q h2, hs = h1 ++ (h, q) :: h2 /\ wtasks pre h1 /\ wtasks post h2 /\ reaches w h /\ p = pfinish (sends w) q.
Proof.
  revert hs. induction pre as [|[w0 p0] pre IH]; cbn [app]; intros hs H.
  - inversion H as [|? x ? ? A T|? h q ? ? D T]; subst.
    + left. exists [], hs, x. split; [reflexivity|]. split; [constructor|auto].
    + right. exists [], h, q. eexists. split; [reflexivity|]. split; [constructor|auto].
  - inversion H as [|? x ? ? A T|? h q ? ? D T]; subst.
    + destruct (IH _ T) as [(h1 & h2 & y & -> & T1 & T2 & R)|(h1 & h & q & h2 & -> & T1 & T2 & R)].
      * left. exists h1, h2, y. split; [reflexivity|]. split; [now constructor|auto].
      * right. exists h1, h, q, h2. split; [reflexivity|]. split; [now constructor|auto].
    + destruct (IH _ T) as [(h1 & h2 & y & -> & T1 & T2 & R)|(h1 & h' & q' & h2 & -> & T1 & T2 & R)].
      * left. exists ((h, q) :: h1), h2, y. split; [reflexivity|]. split; [now constructor|auto].
      * right. exists ((h, q) :: h1), h', q', h2. split; [reflexivity|]. split; [now constructor|auto].
Qed.
Lemma act_pfinish {A B} (f : res A -> B) m q m' p' e : act m (pfinish f q) m' p' e -> exists q', act m q m' q' e /\ p' = pfinish f q'.
Proof.
  intros H. destruct q as [r|s k|u st k|u k|u k|s r k]; cbn [pfinish] in H; inversion H; subst; (eexists; split; [econstructor; eassumption|reflexivity]).
Qed.
Lemma always_ok y h r : hreachable up op a y -> In (h, Done r) (hs_tasks y) -> exists v, r = Ok v.
Proof.
  intros R I. destruct (simulated up op a y R) as (z & _ & _ & T & _). induction T as [|h' hs cs C T IH|h' c p q hs cs C F T IH].
  - destruct I.
  - destruct I as [E|I]; [injection E as _ <-; eauto|auto].
  - destruct I as [E|I]; [|auto]. injection E as -> ->. inversion F; subst. eauto.
Qed.
(** C105: whatever happens at the web server, it does what the handlers do when they are called for the requests that
    reach them, in some execution of the handlers: the sessions are the same, the same operations are done for the same
    requests in the same order and the answers are those of the handlers, except that requests may be answered with a
    timeout and that those that reach no handler are answered without one, health checks with the text that all is well. *)
Lemma behaves x : wreachable up op jt ri a x ->
  exists y, hreachable up op a y /\ hs_store y = ws_store x /\ wtasks (ws_tasks x) (hs_tasks y)
    /\ records reaches turned_away (ws_log x) (hs_log y).
Proof.
  unfold wreachable. remember ws_init as i eqn:Ei. intros H. induction H as [i|i x z H IH S]; subst i.
  { exists hs_init. split; [constructor|]. split; [reflexivity|]. split; constructor. }
  destruct (IH eq_refl) as (y & R & E & T & L). clear IH. destruct y as [m0 ts0 l0]. cbn [hs_store hs_tasks hs_log] in *.
  destruct S as [m ts l w|m m' pre w p p' post l e Ha Hv|m pre w r post l|m pre w p post l|m pre w p post l]; cbn [ws_store ws_tasks ws_log] in *; subst m0.
  - unfold web. destruct (dispatch w) as [h| |n] eqn:D.
    + exists (mk_hsys m ((h, handler up a h) :: ts0) l0). split; [eapply hsteps_snoc; [exact R|constructor]|]. split; [reflexivity|]. split; [|exact L].
      cbn. apply (wt_call w h (handler up a h)); [exact D|exact T].
    + exists (mk_hsys m ts0 l0). split; [exact R|]. split; [reflexivity|]. split; [|exact L]. constructor; [left; auto|exact T].
    + exists (mk_hsys m ts0 l0). split; [exact R|]. split; [reflexivity|]. split; [|exact L]. constructor; [right; eauto|exact T].
  - destruct (wtasks_split _ _ _ _ _ T) as [(h1 & h2 & y & -> & T1 & T2 & A & ->)|(h1 & h & q & h2 & -> & T1 & T2 & D & ->)]; [inversion Ha|].
    destruct (act_pfinish _ _ _ _ _ _ Ha) as (q' & Hq & ->). exists (mk_hsys m' (h1 ++ (h, q') :: h2) ((h, HDoes e) :: l0)).
    split; [eapply hsteps_snoc; [exact R|now constructor]|]. split; [reflexivity|]. split; [apply wtasks_app; [exact T1|now constructor]|now constructor].
  - destruct (wtasks_split _ _ _ _ _ T) as [(h1 & h2 & y & -> & T1 & T2 & A & E)|(h1 & h & q & h2 & -> & T1 & T2 & D & E)].
    + injection E as ->. exists (mk_hsys m (h1 ++ h2) l0). split; [exact R|]. split; [reflexivity|]. split; [now apply wtasks_app|now apply rec_refused].
    + destruct q as [v|? ?|? ? ?|? ?|? ?|? ? ?]; try discriminate E. cbn [pfinish] in E. injection E as ->.
      destruct (always_ok _ h v R) as (v' & ->); [cbn [hs_tasks]; apply in_app_iff; right; now left|].
      exists (mk_hsys m (h1 ++ h2) ((h, HReply v') :: l0)). split; [eapply hsteps_snoc; [exact R|apply h_return]|]. split; [reflexivity|].
      split; [now apply wtasks_app|]. apply rec_reply; [exact D|apply wire_on|exact L].
  - destruct (wtasks_split _ _ _ _ _ T) as [(h1 & h2 & y & -> & T1 & T2 & A & E)|(h1 & h & q & h2 & -> & T1 & T2 & D & E)].
    + exists (mk_hsys m (h1 ++ h2) l0). split; [exact R|]. split; [reflexivity|]. split; [now apply wtasks_app|now apply rec_timeout].
    + exists (mk_hsys m (h1 ++ h2) l0). split; [eapply hsteps_snoc; [exact R|eapply h_drop]|]. split; [reflexivity|].
      split; [now apply wtasks_app|now apply rec_timeout].
  - destruct (wtasks_split _ _ _ _ _ T) as [(h1 & h2 & y & -> & T1 & T2 & A & E)|(h1 & h & q & h2 & -> & T1 & T2 & D & E)].
    + exists (mk_hsys m (h1 ++ h2) l0). split; [exact R|]. split; [reflexivity|]. split; [now apply wtasks_app|exact L].
    + exists (mk_hsys m (h1 ++ h2) l0). split; [eapply hsteps_snoc; [exact R|eapply h_drop]|]. split; [reflexivity|].
      split; [now apply wtasks_app|exact L].
Qed.
End Sim.

Lemma records_mono (r1 r2 : wreq -> hreq -> Prop) (t1 t2 : wreq -> wanswer -> Prop) l k :
  (forall w h, r1 w h -> r2 w h) -> (forall w x, t1 w x -> t2 w x) -> records r1 t1 l k -> records r2 t2 l k.
Proof. intros R T H. induction H; [constructor|constructor; auto|econstructor; eauto|apply rec_refused; auto|apply rec_timeout; auto]. Qed.
Lemma rec_does_in r t l k w e : records r t l k -> In (w, WDoes e) l -> exists h, r w h /\ In (h, HDoes e) k.
Proof.
  intros H I. induction H as [|w' h e' l k D H IH|w' h x y l k D O H IH|w' y l k A H IH|w' l k H IH].
  - destruct I.
  - destruct I as [E|I]; [injection E as -> ->; exists h; split; [exact D|now left]|]. destruct (IH I) as (h' & D' & I'). exists h'. split; [exact D'|now right].
  - destruct I as [E|I]; [discriminate|]. destruct (IH I) as (h' & D' & I'). exists h'. split; [exact D'|now right].
  - destruct I as [E|I]; [discriminate|auto].
  - destruct I as [E|I]; [discriminate|auto].
Qed.
Lemma rec_does_back r t l k h e : records r t l k -> In (h, HDoes e) k -> exists w, r w h /\ In (w, WDoes e) l.
Proof.
  intros H I. induction H as [|w' h' e' l k D H IH|w' h' x y l k D O H IH|w' y l k A H IH|w' l k H IH].
  - destruct I.
  - destruct I as [E|I]; [injection E as -> ->; exists w'; split; [exact D|now left]|]. destruct (IH I) as (v & D' & I'). exists v. split; [exact D'|now right].
  - destruct I as [E|I]; [discriminate|]. destruct (IH I) as (v & D' & I'). exists v. split; [exact D'|now right].
  - destruct (IH I) as (v & D' & I'). exists v. split; [exact D'|now right].
  - destruct (IH I) as (v & D' & I'). exists v. split; [exact D'|now right].
Qed.
Lemma rec_reply_in r t l k w x : records r t l k -> In (w, WReply x) l -> x <> (408%N, CNone) ->
  t w x \/ exists h v, r w h /\ on_wire (w_http w) v x /\ In (h, HReply v) k.
Proof.
  intros H I N. induction H as [|w' h' e' l k D H IH|w' h' v y l k D O H IH|w' y l k A H IH|w' l k H IH].
  - destruct I.
  - destruct I as [E|I]; [discriminate|]. destruct (IH I) as [?|(h & v & ? & ? & ?)]; [auto|]. right. exists h, v. split; [assumption|]. split; [assumption|now right].
  - destruct I as [E|I]; [injection E as -> ->; right; exists h', v; split; [exact D|]; split; [exact O|now left]|].
    destruct (IH I) as [?|(h & u & ? & ? & ?)]; [auto|]. right. exists h, u. split; [assumption|]. split; [assumption|now right].
  - destruct I as [E|I]; [injection E as -> ->; auto|]. exact (IH I).
  - destruct I as [E|I]; [injection E as _ <-; congruence|]. exact (IH I).
Qed.

(** What a program may do. *)
Inductive may {A} : prog A -> event -> Prop :=
| may_initiate s k x : may (Initiate s k) (EvInitiate s x)
| may_update u st k x : may (Update u st k) (EvUpdate u st x)
| may_get u k x : may (Get u k) (EvGet u x)
| may_remove u k x : may (Remove u k) (EvRemove u x)
| may_validate s r k o : may (Validate s r k) (EvValidate s r o)
| later_initiate s k x e : may (k x) e -> may (Initiate s k) e
| later_update u st k x e : may (k x) e -> may (Update u st k) e
| later_get u k x e : may (k x) e -> may (Get u k) e
| later_remove u k x e : may (k x) e -> may (Remove u k) e
| later_validate s r k o e : may (k o) e -> may (Validate s r k) e.
Lemma act_may {A} m (p : prog A) m' p' e : act m p m' p' e -> may p e /\ forall e', may p' e' -> may p e'.
Proof. intros H. destruct H; (split; [constructor|intros e' M; econstructor; exact M]). Qed.
Lemma may_pfinish {A B} (f : res A -> B) p e : may (pfinish f p) e -> may p e.
Proof.
  induction p as [r|s k IH|u st k IH|u k IH|u k IH|s r k IH]; cbn [pfinish]; intros H; inversion H; subst;
    first [constructor; fail|econstructor; eauto].
Qed.
Lemma hdoes up op a y : hreachable up op a y ->
  (forall h p, In (h, p) (hs_tasks y) -> forall e, may p e -> may (handler up a h) e)
  /\ forall h e, In (h, HDoes e) (hs_log y) -> may (handler up a h) e.
Proof.
  unfold hreachable. remember hs_init as i eqn:Ei. intros H. induction H as [i|i x z H IH S]; subst i; [split; intros ? ? []|].
  destruct (IH eq_refl) as [T L]. destruct S as [m ts l h|m m' pre h p p' post l e Ha Hv|m pre h r post l|m pre h p post l]; cbn [hs_tasks hs_log] in *.
  - split; [|exact L]. intros h' p' [E|I]; [injection E as <- <-; auto|eauto].
  - destruct (act_may _ _ _ _ _ Ha) as [M1 M2]. assert (I : In (h, p) (pre ++ (h, p) :: post)) by (apply in_app_iff; right; now left). split.
    + intros h' q I' e' M'. apply in_app_iff in I' as [I'|[E|I']].
      * apply (T h' q); [apply in_app_iff; now left|exact M'].
      * injection E as <- <-. apply (T _ _ I). now apply M2.
      * apply (T h' q); [apply in_app_iff; right; now right|exact M'].
    + intros h' e' [E|I']; [|eauto]. injection E as <- <-. now apply (T _ _ I).
  - split.
    + intros h' q I' e' M'. apply (T h' q); [|exact M']. apply in_app_iff in I' as [I'|I']; apply in_app_iff; [now left|right; now right].
    + intros h' e' [E|I']; [discriminate|auto].
  - split; [|exact L]. intros h' q I' e' M'. apply (T h' q); [|exact M']. apply in_app_iff in I' as [I'|I']; apply in_app_iff; [now left|right; now right].
Qed.

Lemma plain_char_sweep : forallb (fun d => let c := hexdig d in negb (Ascii.eqb c "%") && negb (Ascii.eqb "/" c)) [0;1;2;3;4;5;6;7;8;9;10;11;12;13;14;15]%N = true.
Proof. reflexivity. Qed.
Lemma hexdig_plain d : (d < 16)%N -> hexdig d <> "%"%char /\ hexdig d <> "/"%char.
Proof.
  intros H. assert (I : In d [0;1;2;3;4;5;6;7;8;9;10;11;12;13;14;15]%N) by (cbn; lia).
  pose proof (proj1 (forallb_forall _ _) plain_char_sweep d I) as S. cbv beta zeta in S. apply Bool.andb_true_iff in S as [S1 S2].
  apply Bool.negb_true_iff in S1, S2. apply Ascii.eqb_neq in S1, S2. split; congruence.
Qed.
Definition plain_text (s : string) : Prop := Forall (fun c => c <> "%"%char /\ c <> "/"%char) (chars s).
Lemma plain_app a b : plain_text a -> plain_text b -> plain_text (a +:+ b).
Proof. unfold plain_text, chars. intros H1 H2. induction a as [|c a IH]; cbn in *; [exact H2|]. inversion H1; subst. constructor; auto. Qed.
Lemma plain_hex n : forall x, plain_text (hex_digits n x).
Proof.
  induction n as [|n IH]; intros x; cbn [hex_digits]; [constructor|]. apply plain_app; [apply IH|]. constructor; [|constructor].
  apply hexdig_plain. apply N.mod_lt. discriminate.
Qed.
Lemma plain_dash : plain_text "-". Proof. repeat constructor; discriminate. Qed.
Lemma plain_uuid u : plain_text (uuid_str u).
Proof. unfold uuid_str. repeat (apply plain_app; [first [apply plain_hex|apply plain_dash]|]). apply plain_hex. Qed.
Lemma plain_unpercent s : plain_text s -> unpercent s s.
Proof. unfold plain_text, chars. induction s as [|c s IH]; cbn; intros H; [constructor|]. inversion H as [|? ? [N _] H']; subst. constructor; auto. Qed.
Lemma plain_without s : plain_text s -> without "/" s.
Proof. unfold plain_text, without. intros H I. rewrite Forall_forall in H. now destruct (H _ I). Qed.

Section W.
Variable up : string -> option url.
Variable op : string -> res string.
Variable jt : string -> bool.
Variable ri : string -> initiate_body.
Variable a : adapter.
Lemma wsteps_trans x y z : wsteps up op jt ri a x y -> wsteps up op jt ri a y z -> wsteps up op jt ri a x z.
Proof. intros H1 H2. induction H2; [exact H1|]. eapply wsteps_snoc; [apply IHwsteps, H1|eassumption]. Qed.
(** A program that runs to its end. *)
Lemma w_done w : forall p m ts l m' calls r, run false (app_validator op) p m = (m', calls, Ok r) ->
  exists evs, wsteps up op jt ri a (mk_wsys m ((w, p) :: ts) l) (mk_wsys m' ((w, Done (Ok r)) :: ts) (evs ++ l))
   /\ forall w' e, In (w', e) evs -> exists e', e = WDoes e'.
Proof.
  assert (G : forall p p' m m1 m' ts l r e, act m p m1 p' e -> (forall s r o, e = EvValidate s r o -> o = app_validator op s r) ->
     (exists evs, wsteps up op jt ri a (mk_wsys m1 ((w, p') :: ts) ((w, WDoes e) :: l)) (mk_wsys m' ((w, Done (Ok r)) :: ts) (evs ++ (w, WDoes e) :: l))
        /\ forall w' e, In (w', e) evs -> exists e', e = WDoes e') ->
     exists evs, wsteps up op jt ri a (mk_wsys m ((w, p) :: ts) l) (mk_wsys m' ((w, Done (Ok r)) :: ts) (evs ++ l))
       /\ forall w' e, In (w', e) evs -> exists e', e = WDoes e').
  { intros p p' m m1 m' ts l r e A V (evs & S & D). exists (evs ++ [(w, WDoes e)]). split.
    - rewrite <- app_assoc. eapply wsteps_trans; [|exact S].
      eapply wsteps_snoc; [apply wsteps_refl|]. exact (w_act up op jt ri a m m1 [] w p p' ts l e A V).
    - intros w' e' I. apply in_app_iff in I as [I|[I|[]]]; [eauto|]. injection I as <- <-. eauto. }
  induction p as [x|s k IH|u st k IH|u k IH|u k IH|s x k IH]; intros m ts l m' calls r; cbn [run].
  - intros H. injection H as <- <- ->. exists []. split; [apply wsteps_refl|intros ? ? []].
  - destruct (initiate false s m) as [m1 y] eqn:E. intros H. eapply (G _ _ _ _ _ _ _ _ (EvInitiate s y)); [eapply act_initiate; exact E|discriminate|apply (IH y _ _ _ _ _ _ H)].
  - destruct (update_status false u st m) as [m1 y] eqn:E. intros H. eapply (G _ _ _ _ _ _ _ _ (EvUpdate u st y)); [eapply act_update; exact E|discriminate|apply (IH y _ _ _ _ _ _ H)].
  - intros H. eapply (G _ _ _ _ _ _ _ _ (EvGet u (get_session false u m))); [apply act_get|discriminate|apply (IH _ _ _ _ _ _ _ H)].
  - destruct (remove_session false u m) as [m1 y] eqn:E. intros H. eapply (G _ _ _ _ _ _ _ _ (EvRemove u y)); [eapply act_remove; exact E|discriminate|apply (IH y _ _ _ _ _ _ H)].
  - destruct (run false (app_validator op) (k (app_validator op s x)) m) as [[m1 cs] y] eqn:E. intros H. injection H as <- <- ->.
    eapply (G _ (k (app_validator op s x)) _ m _ _ _ _ (EvValidate s x (app_validator op s x))); [apply act_validate| |apply (IH _ _ _ _ _ _ _ E)].
    intros s2 r2 o2 X. now injection X as <- <- <-.
Qed.
Lemma w_alone w m ts l m' calls r : run false (app_validator op) (web up jt ri a w) m = (m', calls, Ok r) ->
  exists evs, wsteps up op jt ri a (mk_wsys m ts l) (mk_wsys m' ts ((w, WReply r) :: evs ++ l)).
Proof.
  intros H. destruct (w_done w _ m ts l _ _ _ H) as (evs & S & _). exists evs. eapply wsteps_snoc.
  - eapply wsteps_trans; [eapply wsteps_snoc; [apply wsteps_refl|apply w_start]|exact S].
  - apply (w_return up op jt ri a m' [] w r ts).
Qed.
Lemma w_late w m ts l m' calls r : run false (app_validator op) (web up jt ri a w) m = (m', calls, Ok r) ->
  exists evs, wsteps up op jt ri a (mk_wsys m ts l) (mk_wsys m' ts ((w, WReply (408%N, CNone)) :: evs ++ l))
    /\ forall w' e, In (w', e) evs -> exists e', e = WDoes e'.
Proof.
  intros H. destruct (w_done w _ m ts l _ _ _ H) as (evs & S & D). exists evs. split; [|exact D]. eapply wsteps_snoc.
  - eapply wsteps_trans; [eapply wsteps_snoc; [apply wsteps_refl|apply w_start]|exact S].
  - apply (w_timeout up op jt ri a m' [] w (Done (Ok r)) ts).
Qed.
Fixpoint wserve (ws : list wreq) (m : store) : store * list (wreq * res wanswer) :=
  match ws with
  | [] => (m, [])
  | w :: ws => let '(m1, _, r) := run false (app_validator op) (web up jt ri a w) m in
               let (m2, rs) := wserve ws m1 in (m2, (w, r) :: rs)
  end.
Lemma wserved : forall ws m l m' rs, wreachable up op jt ri a (mk_wsys m [] l) -> wserve ws m = (m', rs) ->
  forallb (fun x => match snd x with Ok _ => true | Err _ => false end) rs = true ->
  exists l', wreachable up op jt ri a (mk_wsys m' [] l') /\ (forall w r, In (w, Ok r) rs -> In (w, WReply r) l') /\ (forall e, In e l -> In e l').
Proof.
  induction ws as [|w ws IH]; cbn [wserve]; intros m l m' rs R E N.
  - injection E as <- <-. exists l. split; [exact R|]. split; [intros ? ? []|auto].
  - destruct (run false (app_validator op) (web up jt ri a w) m) as [[m1 cs] r] eqn:Er. destruct (wserve ws m1) as [m2 rs'] eqn:Es. injection E as <- <-.
    cbn in N. destruct r as [r|e]; [|discriminate].
    destruct (w_alone w m [] l _ _ _ Er) as (evs & S).
    destruct (IH m1 ((w, WReply r) :: evs ++ l) m2 rs') as (l' & R' & A & K); [eapply wsteps_trans; eassumption|exact Es|exact N|].
    exists l'. split; [exact R'|]. split.
    + intros w' r' [X|H]; [|auto]. injection X as <- <-. apply K. now left.
    + intros e H. apply K. right. apply in_app_iff. auto.
Qed.
End W.

(* ------------------------------------------------------------ a concrete server *)
Definition toy_json (t : string) : bool := String.eqb t "application/json".
Definition toy_initiate (b : string) : initiate_body :=
  match json_of_text b with
  | Some (JObj o) => match obj_get "nonce" o with
                     | None | Some JNull => Nonce None
                     | Some (JStr n) => Nonce (Some n)
                     | Some _ => Unsuitable
                     end
  | Some _ => Unsuitable
  | None => Malformed
  end.
Definition toy_http (m p : string) (t : option string) (b : string) : wreq := mk_wreq (mk_hrequest m p None t b) 1%N 7%N.
Definition toy_post : wreq := toy_http "POST" "/initiate" (Some "application/json") "{""nonce"":""nonce""}".
Definition toy_fetch (m : string) : wreq := toy_http m ("/request/" +:+ toy_sid) None "".
Definition toy_respond : wreq := toy_http "POST" ("/response/%7B" +:+ toy_sid +:+ "%7d") None "response=a.b.c".
Definition toy_ask : wreq := toy_http "GET" ("/status/" +:+ toy_sid) None "".
Notation toy_web := (wserve simple_parse toy_open toy_json toy_initiate (toy_adapter true)).
Lemma toy_web_replies : map snd (snd (toy_web [toy_post; toy_ask; toy_fetch "HEAD"; toy_ask; toy_respond; toy_ask] [])) =
  [Ok (200%N, CJson (JObj [("authorization_url", JStr "https://demo.certification.openid.net/test/a/my-verifier-oid4vp1/authorize?client_id=x509_san_dns%3Av.example&request_uri=https%3A%2F%2Fv.example%2Frequest%2F00000000-0000-0000-0000-000000000007");
                            ("session_id", JStr "00000000-0000-0000-0000-000000000007");
                            ("status_url", JStr "https://v.example//status/00000000-0000-0000-0000-000000000007")]));
   Ok (200%N, CJson (status_json SentRequestByReference));
   Ok (200%N, CNone);
   Ok (200%N, CJson (status_json SentRequest));
   Ok (200%N, CJson (JObj []));
   Ok (200%N, CJson (status_json (Complete (app_validator toy_open (toy_session 7%N) (Jwt "a.b.c")))))].
Proof. vm_compute. reflexivity. Qed.
Lemma toy_web_run : exists x, wreachable simple_parse toy_open toy_json toy_initiate (toy_adapter true) x
  /\ In (toy_post, WReply (200%N, CJson (JObj [("authorization_url", JStr "https://demo.certification.openid.net/test/a/my-verifier-oid4vp1/authorize?client_id=x509_san_dns%3Av.example&request_uri=https%3A%2F%2Fv.example%2Frequest%2F00000000-0000-0000-0000-000000000007");
                            ("session_id", JStr "00000000-0000-0000-0000-000000000007");
                            ("status_url", JStr "https://v.example//status/00000000-0000-0000-0000-000000000007")]))) (ws_log x)
  /\ In (toy_ask, WReply (200%N, CJson (status_json (Complete (app_validator toy_open (toy_session 7%N) (Jwt "a.b.c")))))) (ws_log x).
Proof.
  pose proof toy_web_replies as T. remember [toy_post; toy_ask; toy_fetch "HEAD"; toy_ask; toy_respond; toy_ask] as ws eqn:Ews.
  destruct (toy_web ws []) as [m' rs] eqn:E. cbn [snd] in T.
  assert (F : map fst rs = ws).
  { assert (G : forall ws m, map fst (snd (toy_web ws m)) = ws).
    { induction ws0 as [|w ws0 IH]; intros m; [reflexivity|]. cbn [wserve]. destruct (run false (app_validator toy_open) _ m) as [[m1 cs] r].
      specialize (IH m1). destruct (wserve _ _ _ _ _ ws0 m1) as [m2 rs2]. cbn in *. now f_equal. }
    specialize (G ws []). now rewrite E in G. }
  destruct (wserved simple_parse toy_open toy_json toy_initiate (toy_adapter true) ws [] [] m' rs) as (l' & R & A & _).
  - constructor.
  - exact E.
  - subst ws. do 6 (destruct rs as [|[? ?] rs]; [discriminate|]). destruct rs; [|discriminate]. cbn [map snd] in T.
    injection T as -> -> -> -> -> ->. reflexivity.
  - exists (mk_wsys m' [] l'). split; [exact R|]. subst ws. do 6 (destruct rs as [|[? ?] rs]; [discriminate|]). destruct rs; [|discriminate].
    cbn [map snd] in T. cbn [map fst] in F. injection F as -> -> -> -> -> ->. injection T as -> -> -> -> -> ->. split; apply A; cbn [In]; auto 8.
Qed.
Lemma toy_named e : names_session e ("/" +:+ e +:+ "/" +:+ toy_sid) toy_sid.
Proof.
  assert (exists l, utf8 toy_sid l) as (l & U) by (apply utf8_iff; reflexivity). exists toy_sid, l. split.
  - split; [reflexivity|]. split; [discriminate|]. apply plain_without, plain_uuid.
  - split; [apply plain_unpercent, plain_uuid|exact U].
Qed.
Example c105_routes_ex :
  dispatch toy_json toy_initiate toy_respond = To (HResponse ("{" +:+ toy_sid +:+ "}") "response=a.b.c")
  /\ uuid_of_string ("{" +:+ toy_sid +:+ "}") = Some 7%N
  /\ dispatch toy_json toy_initiate toy_post = To (HInitiate (Some "nonce") 1%N 7%N)
  /\ dispatch toy_json toy_initiate (toy_fetch "HEAD") = To (HRequest toy_sid)
  /\ dispatch toy_json toy_initiate toy_ask = To (HStatus toy_sid)
  /\ dispatch toy_json toy_initiate (toy_http "GET" "/health" None "") = Health.
Proof. split; [|split; [|split; [|split; [|split]]]]; reflexivity. Qed.
Example c105_refused_ex :
  map (dispatch toy_json toy_initiate)
    [toy_http "OPTIONS" "/nowhere" None ""; toy_http "GET" "/status/%ff" None ""; toy_http "GET" "/status/a/b" None "";
     toy_http "GET" "/status/" None ""; toy_http "DELETE" "/status/a" None ""; toy_http "POST" "/initiate" None "{}";
     toy_http "POST" "/initiate" (Some "application/json") "{""nonce"":1}"; toy_http "POST" "/initiate" (Some "application/json") "{"]
  = map Refuse [200; 400; 404; 404; 405; 415; 422; 400]%N.
Proof. reflexivity. Qed.

(** C105: whatever happens at the web server, it does what the handlers do when they are called for the requests that
    reach them, in some execution of the handlers: the sessions are the same, the same operations are done for the same
    requests in the same order, and the answers are those of the handlers, except that requests may be answered with a
    timeout and that those that reach no handler are answered without one, health checks with the text that all is well. *)
Lemma c105_behaves_pf :
  forall (url_parse : string -> option url) (jwe_open : string -> res string) (json_type : string -> bool)
    (read_initiate : string -> initiate_body) (a : adapter) (x : wsys),
    wreachable url_parse jwe_open json_type read_initiate a x ->
    exists y, hreachable url_parse jwe_open a y /\ hs_store y = ws_store x
      /\ records (fun w h => dispatch json_type read_initiate w = To h)
           (fun w x => (exists n, dispatch json_type read_initiate w = Refuse n /\ x = (n, CNone))
                       \/ dispatch json_type read_initiate w = Health /\ healthy (w_http w) x)
           (ws_log x) (hs_log y).
Proof.
  intros up op jt ri a x R. destruct (behaves up op jt ri a x R) as (y & Ry & E & _ & L). exists y. split; [exact Ry|]. split; [exact E|].
  eapply records_mono; [| |exact L].
  - intros w h D. exact D.
  - intros w z [(D & ->)|(n & D & ->)]; [right|left; eauto]. split; [exact D|]. unfold wire, healthy.
    destruct (String.eqb_spec (hq_method (w_http w)) "HEAD") as [Hd|Hd]; (split; [reflexivity|]); (split; [intros H; try reflexivity; contradiction|]);
      intros H; [contradiction|]. eexists. split; [reflexivity|]. split; [reflexivity|]. split; [reflexivity|].
    intros k. cbn [obj_get web_health]. destruct (String.eqb_spec k "service"); [subst; cbn; auto|].
    destruct (String.eqb_spec k "status"); [subst; cbn; auto|]. contradiction.
Qed.
Example c105_behaves_ex :
  exists x, wreachable simple_parse toy_open toy_json toy_initiate (toy_adapter true) x
    /\ In (toy_ask, WReply (200%N, CJson (status_json (Complete (app_validator toy_open (toy_session 7%N) (Jwt "a.b.c")))))) (ws_log x).
Proof. destruct toy_web_run as (x & R & _ & A). eauto. Qed.

(** C105: over HTTP, too, success is reported for a session only if a POST to that session's response endpoint carried
    a response that the verifier takes for good, the report is about that response, and the verdict was recorded for
    that request. *)
Lemma c105_success_pf :
  forall (url_parse : string -> option url) (jwe_open : string -> res string) (json_type : string -> bool)
    (read_initiate : string -> initiate_body) (a : adapter) (x : wsys) (w : wreq) (u : uuid) (j info : json),
    wreachable url_parse jwe_open json_type read_initiate a x ->
    fetches "status" (w_http w) u -> In (w, WReply (200%N, CJson j)) (ws_log x) -> says_success j info ->
    exists w' r, responds (w_http w') u
      /\ In (w', WDoes (EvUpdate u (Complete (OSuccess info)) (Ok tt))) (ws_log x)
      /\ from_form (hq_body (w_http w')) = Ok r /\ taken jwe_open r info.
Proof.
  intros up op jt ri a x w u j info R (M & sid & P & Su) I Sj. destruct (behaves up op jt ri a x R) as (y & Ry & _ & _ & L).
  pose proof (c105_routes_pf jt ri w) as (D & _). cbv zeta in D. assert (Dw : dispatch jt ri w = To (HStatus sid)) by (apply D; auto).
  destruct (rec_reply_in _ _ _ _ _ _ L I) as [[(X & _)|(n & X & _)]|(h & v & Hh & O & K)]; [discriminate|congruence|congruence|].
  unfold reaches in Hh. rewrite Dw in Hh. injection Hh as <-.
  assert (v = RJson 200 j) as ->.
  { destruct O as (full & F & O1 & O2). destruct (String.eqb_spec (hq_method (w_http w)) "HEAD") as [H|H]; [specialize (O1 H); discriminate O1|].
    rewrite <- (O2 H) in F. destruct v; [|discriminate|discriminate]. injection F as <- <-. reflexivity. }
  destruct (c76_success_pf _ _ _ _ _ _ _ Ry K Sj) as (u' & sid' & body & r & U1 & U2 & J & F & T). assert (u' = u) by congruence. subst u'.
  destruct (rec_does_back _ _ _ _ _ _ L J) as (w' & D' & I'). unfold reaches in D'.
  pose proof (c105_routes_pf jt ri w') as (_ & _ & D3 & _). cbv zeta in D3. apply D3 in D' as (M' & P' & -> & _).
  exists w', r. split; [split; [exact M'|eauto]|auto].
Qed.
Example c105_success_ex :
  exists x w j info, wreachable simple_parse toy_open toy_json toy_initiate (toy_adapter true) x
    /\ fetches "status" (w_http w) 7%N /\ In (w, WReply (200%N, CJson j)) (ws_log x) /\ says_success j info.
Proof.
  destruct toy_web_run as (x & R & _ & A). exists x, toy_ask, (status_json (Complete (app_validator toy_open (toy_session 7%N) (Jwt "a.b.c")))).
  exists (JObj [("decrypted_payload", JObj []); ("message", JStr "JARM response decrypted and verified")]). split; [exact R|]. split; [|split; [exact A|]].
  - split; [now left|]. exists toy_sid. split; [apply toy_named|]. apply uuid_back. reflexivity.
  - match goal with |- says_success ?j ?i => change (says_success (JObj [("info", i); ("result", JStr "success"); ("status", JStr "complete")]) i) end.
    apply members_of; [reflexivity|]. intros kv. cbn [In]. tauto.
Qed.

(** C105: a request leads to operations on the session it names only (or on the one it creates), and only to those its
    endpoint is for: creating at /initiate, reading at the status endpoint, reading and marking as sent at the request
    endpoint, reading and completing, with the response in its body, at the response endpoint. *)
Lemma c105_business_pf :
  forall (url_parse : string -> option url) (jwe_open : string -> res string) (json_type : string -> bool)
    (read_initiate : string -> initiate_body) (a : adapter) (x : wsys) (w : wreq) (e : event),
    wreachable url_parse jwe_open json_type read_initiate a x -> In (w, WDoes e) (ws_log x) -> its_business w e.
Proof.
  intros up op jt ri a x w e R I. destruct (behaves up op jt ri a x R) as (y & Ry & _ & _ & L).
  destruct (rec_does_in _ _ _ _ _ _ L I) as (h & D & K). apply (proj2 (hdoes up op a y Ry)) in K. unfold reaches in D.
  pose proof (c105_routes_pf jt ri w) as (D1 & D2 & D3 & D4 & _). cbv zeta in D1, D2, D3, D4.
  destruct h as [n f id|sid|sid body|sid]; cbn [handler] in K.
  - apply D4 in D as (M & P & _ & _ & _ & -> & ->). apply may_pfinish in K. unfold build_code in K.
    destruct (rb_prepare up (initiate_builder a n (w_fresh w)) (w_id w) (ap_wallet a)) as [[s d]|] eqn:E; [|inversion K].
    apply prepare_inv in E as (U & _). inversion K as [? ? ?| | | | |? ? ? ? K'| | | |]; subst; [|inversion K'].
    cbn. auto.
  - apply D2 in D as (M & P). unfold get_request_object in K. destruct (uuid_of_string sid) as [u|] eqn:U; [|inversion K].
    assert (F : fetches "request" (w_http w) u) by (split; [exact M|eauto]).
    apply may_pfinish in K. unfold retrieve_code in K. inversion K as [| |? ? ?| | | | |? ? v ? K'| |]; subst; [cbn; auto|].
    destruct v as [s|]; [|inversion K']. destruct (status_lt (s_status s) SentRequest); [|inversion K'].
    inversion K' as [|? ? ? ?| | | | |? ? ? ? ? K2| | |]; subst; [cbn; auto|inversion K2].
  - apply D3 in D as (M & P & -> & _). unfold receive_response in K. destruct (utf8_valid (hq_body (w_http w))); [|inversion K].
    destruct (uuid_of_string sid) as [u|] eqn:U; [|inversion K]. destruct (from_form (hq_body (w_http w))) as [r|] eqn:Fb; [|inversion K].
    assert (F : responds (w_http w) u) by (split; [exact M|eauto]).
    apply may_pfinish in K. unfold verify_code in K. inversion K as [| |? ? ?| | | | |? ? v ? K'| |]; subst; [cbn; auto|].
    destruct v as [s|]; [|inversion K']. inversion K' as [| | | |? ? ? ?| | | | |? ? ? o ? K2]; subst; [cbn; eauto|].
    inversion K2 as [|? ? ? ?| | | | |? ? ? ? ? K3| | |]; subst; [cbn; eauto 6|inversion K3].
  - apply D1 in D as (M & P). unfold get_status in K. destruct (uuid_of_string sid) as [u|] eqn:U; [|inversion K].
    assert (F : fetches "status" (w_http w) u) by (split; [exact M|eauto]).
    apply may_pfinish in K. unfold poll_code in K. inversion K as [| |? ? ?| | | | |? ? v ? K'| |]; subst; [cbn; auto|inversion K'].
Qed.
Example c105_business_ex :
  exists x w e, wreachable simple_parse toy_open toy_json toy_initiate (toy_adapter true) x /\ In (w, WDoes e) (ws_log x).
Proof.
  destruct c105_success_ex as (x & w & j & info & R & F & I & S).
  destruct (c105_success_pf _ _ _ _ _ _ _ _ _ _ R F I S) as (w' & r & _ & D & _). eauto.
Qed.

(** C105: the request and response URLs handed out for a session are ones that the server answers for that session,
    exactly when the public URL has no directory in its path; otherwise it answers 404 to them. *)
Lemma c105_links_pf :
  forall (public r : url) (id : uuid) (endpoint : string),
    endpoint = "request" \/ endpoint = "response" -> at_session public endpoint id r ->
    (at_top public -> names_session endpoint (u_path r) (uuid_str id))
    /\ (~ at_top public -> ~ known (u_path r)).
Proof.
  intros public r id e He (base & (_ & _ & _ & _ & _ & _ & dir & Pb & Pp) & (_ & _ & _ & _ & _ & _ & Pr)).
  assert (Er : u_path r = dir +:+ "/" +:+ e +:+ "/" +:+ uuid_str id).
  { rewrite Pr, Pb. assert (Ln : Nat.eqb (String.length (dir +:+ "/" +:+ e)) 1 = false).
    { apply Nat.eqb_neq. rewrite !append_len. destruct He as [-> | ->]; cbn; lia. }
    rewrite Ln. now rewrite !sapp_assoc. }
  assert (W : has_char "/" (uuid_str id) = false) by (apply without_slash, plain_without, plain_uuid). split.
  - intros (last & Q & Wl). assert (dir = "") as ->.
    { apply without_slash in Wl. destruct Pp as [(l' & Pp & Hl')|[_ ?]]; [|assumption]. destruct Q as [Q|Q].
      - rewrite Q in Pp. rewrite Pp, !has_char_app in Wl. cbn in Wl. rewrite Bool.orb_true_r in Wl. discriminate.
      - assert (X : rsplit_once "/" (u_path public) = Some (dir, l')) by (apply rsplit_once_some; auto).
        assert (Y : rsplit_once "/" (u_path public) = Some ("", last)) by (apply rsplit_once_some; auto). congruence. }
    assert (exists l, utf8 (uuid_str id) l) as (l & U) by (apply utf8_iff, utf8_ascii, uuid_ascii).
    exists (uuid_str id), l. split; [|split; [apply plain_unpercent, plain_uuid|exact U]]. split; [exact Er|]. split.
    + intros Z. assert (L : String.length (uuid_str id) = 0) by now rewrite Z. unfold uuid_str in L. rewrite !append_len in L. cbn in L. lia.
    + apply plain_without, plain_uuid.
  - intros N K. assert (Nd : dir <> "").
    { intros ->. apply N. destruct Pp as [(l' & Pp & Hl')|(Hp & _)].
      - exists l'. split; [right; exact Pp|now apply without_slash].
      - exists (u_path public). split; [now left|now apply without_slash]. }
    assert (X : rsplit_once "/" (u_path r) = Some (dir +:+ "/" +:+ e, uuid_str id)).
    { apply rsplit_once_some. split; [|exact W]. rewrite Er. cbn. now rewrite !sapp_assoc. }
    assert (Y : forall e' seg, under e' (u_path r) seg -> has_char "/" e' = false -> False).
    { intros e' seg (Eq & _ & Ws) We. assert (Y : rsplit_once "/" (u_path r) = Some ("/" +:+ e', seg)).
      { apply rsplit_once_some. split; [|now apply without_slash]. rewrite Eq. reflexivity. }
      rewrite X in Y. injection Y as Y _.
      assert (Z1 : rsplit_once "/" (dir +:+ "/" +:+ e) = Some (dir, e)).
      { apply rsplit_once_some. split; [reflexivity|]. destruct He as [-> | ->]; reflexivity. }
      assert (Z2 : rsplit_once "/" ("/" +:+ e') = Some ("", e')) by (apply rsplit_once_some; auto).
      change (dir +:+ String "/" e = String "/" e') in Y. change (dir +:+ "/" +:+ e) with (dir +:+ String "/" e) in Z1. rewrite Y in Z1.
      change ("/" +:+ e') with (String "/" e') in Z2. congruence. }
    destruct K as (m & [([K|(s & K)] & _)|([K|[(s & K)|(s & K)]] & _)]).
    + rewrite K in X. change (rsplit_once "/" "/initiate") with (Some ("", "initiate")) in X. injection X as X _. destruct dir; discriminate.
    + now apply (Y "response" s K).
    + rewrite K in X. change (rsplit_once "/" "/health") with (Some ("", "health")) in X. injection X as X _. destruct dir; discriminate.
    + now apply (Y "request" s K).
    + now apply (Y "status" s K).
Qed.
Example c105_links_ex :
  at_top (toy_url "https://v.example/") /\ ~ at_top (toy_url "https://v.example/app/")
  /\ (exists r, at_session (toy_url "https://v.example/") "response" 7%N r /\ u_path r = "/response/00000000-0000-0000-0000-000000000007")
  /\ exists r, at_session (toy_url "https://v.example/app/") "response" 7%N r /\ u_path r = "/app/response/00000000-0000-0000-0000-000000000007".
Proof.
  split; [exists ""; split; [now right|intros []]|]. split.
  - intros (last & [E|E] & W); cbn in E; [subst last; apply W; now left|]. injection E as <-. apply W. cbn. auto.
  - split.
    + exists (mk_url "https" (Some "v.example") "/response/00000000-0000-0000-0000-000000000007" false None None). split; [|reflexivity].
      exists (mk_url "https" (Some "v.example") "/response" false None None). split.
      * repeat (split; [reflexivity|]). exists "". split; [reflexivity|]. left. exists "". split; reflexivity.
      * repeat (split; [reflexivity|]). reflexivity.
    + exists (mk_url "https" (Some "v.example") "/app/response/00000000-0000-0000-0000-000000000007" false None None). split; [|reflexivity].
      exists (mk_url "https" (Some "v.example") "/app/response" false None None). split.
      * repeat (split; [reflexivity|]). exists "/app". split; [reflexivity|]. left. exists "". split; reflexivity.
      * repeat (split; [reflexivity|]). reflexivity.
Qed.

(** C105: a HEAD request, which carries no request object back, marks the session's request as sent to the wallet: the
    status endpoint then says that the verifier waits for a response to a request nobody has received. *)
Lemma c105_head_refuted_pf :
  forall (url_parse : string -> option url) (jwe_open : string -> res string) (json_type : string -> bool)
    (read_initiate : string -> initiate_body) (a : adapter) (w : wreq) (u : uuid) (m : store) (s : session),
    fetches "request" (w_http w) u -> hq_method (w_http w) = "HEAD" ->
    st_get u m = Some s -> s_status s = SentRequestByReference ->
    exists m' s', run false (app_validator jwe_open) (web url_parse json_type read_initiate a w) m = (m', [], Ok (200%N, CNone))
      /\ st_get u m' = Some s' /\ s_status s' = SentRequest.
Proof.
  intros up op jt ri a w u m s (M & sid & P & U) Hm G St. pose proof (c105_routes_pf jt ri w) as (_ & D2 & _). cbv zeta in D2.
  assert (D : dispatch jt ri w = To (HRequest sid)) by (apply D2; auto). unfold web. rewrite D, run_pfinish. cbn [handler].
  unfold get_request_object. rewrite U, run_pfinish. unfold retrieve_code. cbn [run].
  assert (Eg : get_session false u m = Ok s) by (unfold get_session; now rewrite G).
  assert (Eu : update_status false u SentRequest m = (st_insert u (set_status s SentRequest) m, Ok tt)) by (unfold update_status; now rewrite G).
  rewrite Eg, St. change (status_lt SentRequestByReference SentRequest) with true. cbn [run]. rewrite Eu. cbn [run rmap request_reply].
  eexists. exists (set_status s SentRequest). split.
  - unfold wire. rewrite Hm. reflexivity.
  - rewrite st_get_insert, N.eqb_refl. split; reflexivity.
Qed.
Example c105_head_refuted_ex :
  exists m s, fst (toy_web [toy_post] []) = m /\ st_get 7%N m = Some s /\ s_status s = SentRequestByReference
    /\ fetches "request" (w_http (toy_fetch "HEAD")) 7%N.
Proof.
  assert (match st_get 7%N (fst (toy_web [toy_post] [])) with Some s => s_status s = SentRequestByReference | None => False end) by (vm_compute; reflexivity).
  destruct (st_get 7%N (fst (toy_web [toy_post] []))) as [s|] eqn:E; [|contradiction].
  exists (fst (toy_web [toy_post] [])), s. split; [reflexivity|]. split; [exact E|]. split; [exact H|].
  split; [now right|]. exists toy_sid. split; [apply toy_named|]. apply uuid_back. reflexivity.
Qed.

(** C105: a response that is answered with a timeout may have been accepted all the same: whatever session there is,
    the server can answer 408 to a readable response to it and have recorded the verdict on that very response. *)
Lemma c105_timeout_refuted_pf :
  forall (url_parse : string -> option url) (jwe_open : string -> res string) (json_type : string -> bool)
    (read_initiate : string -> initiate_body) (a : adapter) (x : wsys) (w : wreq) (u : uuid) (s : session) (r : auth_response),
    wreachable url_parse jwe_open json_type read_initiate a x ->
    responds (w_http w) u -> fits (w_http w) -> utf8_valid (hq_body (w_http w)) = true -> from_form (hq_body (w_http w)) = Ok r ->
    st_get u (ws_store x) = Some s ->
    exists y l s', wsteps url_parse jwe_open json_type read_initiate a x y
      /\ ws_log y = (w, WReply (408%N, CNone)) :: l ++ ws_log x /\ (forall w' z, ~ In (w', WReply z) l)
      /\ st_get u (ws_store y) = Some s' /\ s_status s' = Complete (app_validator jwe_open s r).
Proof.
  intros up op jt ri a x w u s r R (M & sid & P & U) Fi V F G. pose proof (c105_routes_pf jt ri w) as (_ & _ & D3 & _). cbv zeta in D3.
  assert (D : dispatch jt ri w = To (HResponse sid (hq_body (w_http w)))) by (apply D3; auto).
  destruct (proj1 (c78_response_pf op sid (hq_body (w_http w)) (ws_store x)) u r s V U F G) as (m' & s' & E & G' & _ & St & _).
  destruct x as [m ts l0]. cbn [ws_store ws_log] in *.
  destruct (w_late up op jt ri a w m ts l0 m' [(s, r)] (wire (w_http w) (200%N, CJson (JObj [])))) as (evs & S & Dn).
  { unfold web. rewrite D, run_pfinish. cbn [handler]. rewrite E. reflexivity. }
  eexists. exists evs, s'. split; [exact S|]. split; [reflexivity|]. split; [|split; [exact G'|exact St]].
  intros w' z I. destruct (Dn _ _ I) as (e' & X). discriminate X.
Qed.
Example c105_timeout_refuted_ex :
  responds (w_http toy_respond) 7%N /\ fits (w_http toy_respond) /\ utf8_valid (hq_body (w_http toy_respond)) = true
  /\ from_form (hq_body (w_http toy_respond)) = Ok (Jwt "a.b.c")
  /\ exists x s, wreachable simple_parse toy_open toy_json toy_initiate (toy_adapter true) x /\ st_get 7%N (ws_store x) = Some s.
Proof.
  split; [|split; [|split; [|split]]].
  - split; [reflexivity|]. exists ("{" +:+ toy_sid +:+ "}"). split; [|reflexivity].
    pose proof (c105_routes_pf toy_json toy_initiate toy_respond) as (_ & _ & D & _). cbv zeta in D.
    destruct (proj1 (D ("{" +:+ toy_sid +:+ "}") "response=a.b.c") eq_refl) as (_ & N & _). exact N.
  - vm_compute. discriminate.
  - reflexivity.
  - vm_compute. reflexivity.
  - destruct c105_head_refuted_ex as (m & s & E & G & _). destruct (toy_web [toy_post] []) as [m' rs] eqn:W. cbn [fst] in E. subst m'.
    destruct (wserved simple_parse toy_open toy_json toy_initiate (toy_adapter true) [toy_post] [] [] m rs) as (l' & R & _).
    + constructor.
    + exact W.
    + replace rs with (snd (toy_web [toy_post] [])) by now rewrite W. vm_compute. reflexivity.
    + exists (mk_wsys m [] l'), s. split; [exact R|exact G].
Qed.
