From Coq Require Import Lia.
From Verif Require Import Base BaseFacts Utf8 Utf8Facts Json JsonFacts JsonText JsonTextFacts Base64Facts Url
  Object Params Metadata Effects Request Verify Response Wallet SpecRequest PfRequest SpecResponse PfResponse SpecWallet.

(* ------------------------------------------------------------ blank text *)
Lemma white_cat c r : In c white_space -> all_white (c +:+ r) = all_white r.
Proof. intros H. vm_compute in H. repeat (destruct H as [<-|H]; [reflexivity|]). destruct H. Qed.
Lemma byte_eq c n : (n < 256)%N -> (byte c =? n)%N = true -> c = chr n.
Proof. intros Hn H. apply N.eqb_eq in H. rewrite <- H. symmetry. apply chr_byte. Qed.
Lemma in_range_cases lo hi c : in_range lo hi c = true -> (lo <= byte c <= hi)%N.
Proof. unfold in_range. rewrite andb_true_iff, !N.leb_le. auto. Qed.
Ltac pick := repeat (first [left; reflexivity | right]).
Lemma blank_cons c s : In c white_space -> blank s -> blank (c +:+ s).
Proof.
  intros H (l & Hl & ->). exists (c :: l). split; [|reflexivity]. intros d [<-|Hd]; auto.
Qed.
Lemma chr_of c n : byte c = n -> c = chr n.
Proof. intros <-. symmetry. apply chr_byte. Qed.
Lemma white1 n : (9 <= n <= 13)%N \/ n = 32%N -> In (bytes [n]) white_space.
Proof.
  intros H. assert (In n [9; 10; 11; 12; 13; 32]%N) by (cbn; lia).
  apply in_or_app. left. apply in_map_iff. eauto.
Qed.
Lemma white2 n : n = 133%N \/ n = 160%N -> In (bytes [194%N; n]) white_space.
Proof.
  intros H. apply in_or_app. right. apply in_or_app. left. apply in_map_iff. exists n. split; [reflexivity|cbn; intuition].
Qed.
Lemma white3 n : (128 <= n <= 138)%N \/ n = 168%N \/ n = 169%N \/ n = 175%N -> In (bytes [226%N; 128%N; n]) white_space.
Proof.
  intros H. do 3 (apply in_or_app; right). apply in_or_app; left. apply in_map_iff. exists n. split; [reflexivity|cbn; lia].
Qed.
Lemma white_iff s : all_white s = true <-> blank s.
Proof.
  split.
  - remember (String.length s) as n eqn:En. revert s En.
    induction n as [n IH] using lt_wf_ind. intros s En H. subst n.
    destruct s as [|c r]; [exists []; split; [intros ? []|reflexivity]|].
    cbn [all_white] in H. destruct (in_range 9 13 c || (byte c =? 32)%N) eqn:E1.
    + change (String c r) with (s1 c +:+ r). apply blank_cons.
      * replace (s1 c) with (bytes [byte c]) by (cbn; now rewrite chr_byte). apply white1.
        apply orb_true_iff in E1 as [E|E]; [left; now apply in_range_cases|right; now apply N.eqb_eq].
      * apply (IH (String.length r)); [cbn; lia|reflexivity|exact H].
    + destruct r as [|d r1]; [discriminate|].
      destruct ((byte c =? 194)%N && ((byte d =? 133)%N || (byte d =? 160)%N)) eqn:E2.
      * apply andb_true_iff in E2 as [Ec Ed]. apply N.eqb_eq in Ec. apply orb_true_iff in Ed. rewrite !N.eqb_eq in Ed.
        change (String c (String d r1)) with (String c (s1 d) +:+ r1). apply blank_cons.
        -- replace (String c (s1 d)) with (bytes [byte c; byte d]) by (unfold bytes; cbn [fold_right]; rewrite !chr_byte; reflexivity).
           rewrite Ec. now apply white2.
        -- apply (IH (String.length r1)); [cbn; lia|reflexivity|exact H].
      * destruct r1 as [|e r2]; [discriminate|].
        match type of H with (if ?b then _ else _) = _ => destruct b eqn:E3; [|discriminate] end.
        change (String c (String d (String e r2))) with (String c (String d (s1 e)) +:+ r2). apply blank_cons.
        -- replace (String c (String d (s1 e))) with (bytes [byte c; byte d; byte e]) by (unfold bytes; cbn [fold_right]; rewrite !chr_byte; reflexivity).
           rewrite !orb_true_iff, !andb_true_iff, !orb_true_iff, !andb_true_iff, !N.eqb_eq, !N.leb_le in E3.
           destruct E3 as [[[[[-> ->] ->]|[[-> ->] E]]|[[-> ->] ->]]|[[-> ->] ->]].
           ++ vm_compute. tauto.
           ++ apply white3. tauto.
           ++ vm_compute. tauto.
           ++ vm_compute. tauto.
        -- apply (IH (String.length r2)); [cbn; lia|reflexivity|exact H].
  - intros (l & Hl & ->). induction l as [|c l IH]; [reflexivity|]. cbn [fold_right].
    rewrite white_cat by (apply Hl; now left). apply IH. intros d Hd. apply Hl. now right.
Qed.

(** Blank text is not JSON. *)
Definition not_start_b (c : ascii) : bool :=
  negb (is_ws c || Ascii.eqb c dquote || Ascii.eqb c "[" || Ascii.eqb c "{" || Ascii.eqb c "n"
        || Ascii.eqb c "t" || Ascii.eqb c "f" || is_numchar c).
Definition white_start_b (c : ascii) : bool :=
  negb (in_range 9 13 c || (byte c =? 32)%N || (byte c =? 194)%N || (byte c =? 225)%N
        || (byte c =? 226)%N || (byte c =? 227)%N)
  || is_ws c || not_start_b c.
Lemma white_start_all : forallb white_start_b all_ascii = true.
Proof. vm_compute. reflexivity. Qed.
Lemma white_start c r : all_white (String c r) = true -> is_ws c = false -> not_start_b c = true.
Proof.
  intros H Hw. pose proof (proj1 (forallb_forall white_start_b all_ascii) white_start_all c (all_ascii_in c)) as K.
  unfold white_start_b in K. rewrite Hw, orb_false_r in K. apply orb_true_iff in K as [K|K]; [|exact K]. exfalso.
  apply negb_true_iff in K. rewrite !orb_false_iff in K. destruct K as (((((K1 & K2) & K3) & K4) & K5) & K6).
  cbn [all_white] in H. rewrite K1, K2 in H. cbn [orb] in H. destruct r as [|d r]; [discriminate|].
  rewrite K3 in H. cbn [andb] in H. destruct r as [|e r]; [discriminate|].
  rewrite K4, K5, K6 in H. cbn [andb orb] in H. discriminate.
Qed.
Lemma skip_white s : all_white s = true ->
  skip_ws s = EmptyString \/ exists c r, skip_ws s = String c r /\ not_start_b c = true.
Proof.
  induction s as [|c s IH]; intros H; [now left|]. cbn [skip_ws]. destruct (is_ws c) eqn:E.
  - apply IH. revert E H. cbn [all_white]. unfold is_ws, in_range. intros E H.
    assert ((9 <=? byte c)%N && (byte c <=? 13)%N || (byte c =? 32)%N = true) as K.
    { rewrite !orb_true_iff, !N.eqb_eq in E. rewrite orb_true_iff, andb_true_iff, !N.leb_le, N.eqb_eq. lia. }
    rewrite K in H. exact H.
  - right. exists c, s. split; [reflexivity|]. now apply (white_start c s).
Qed.
Lemma blank_not_json s : blank s -> json_of_text s = None.
Proof.
  intros H. apply white_iff in H. unfold json_of_text, parse_raw.
  replace (2 * String.length s + 2) with (S (2 * String.length s + 1)) by lia. cbn [parse_value].
  destruct (skip_white s H) as [->|(c & r & -> & N)]; [reflexivity|].
  unfold not_start_b in N. apply negb_true_iff in N. rewrite !orb_false_iff in N.
  destruct N as (((((((N1 & N2) & N3) & N4) & N5) & N6) & N7) & N8).
  rewrite N2, N3, N4, N5, N6, N7. cbn [take_num]. rewrite N8. reflexivity.
Qed.

(* ------------------------------------------------------------ the exchange *)
Section Exchange.
Variable up : string -> option url.
Variable ok : string -> bool.
Variable http : http_client.

Definition answer (body : string) : res (option url) :=
  if all_white body then Ok None
  else let? j := ok_or (json_of_text body) "verifier response is not valid JSON" in
       match match j with
             | JObj m => match obj_get "redirect_uri" m with Some v => as_str v | None => None end
             | _ => None
             end with
       | None => Ok None
       | Some s => let? u := ok_or (up s) "invalid redirect_uri" in Ok (Some u)
       end.
Definition posted (uri : url) (body : string) : M wevent (option url) :=
  if ok (url_str uri) then
    ([EHttp (form_post (url_str uri) body)],
     let? rs := http (form_post (url_str uri) body) in
     let? _ := of_bool (utf8_valid (rs_body rs)) "not UTF-8" in
     let? _ := of_bool (is_success (rs_status rs)) "unsuccessful" in
     answer (rs_body rs))
  else ([], Err "failed to construct request").
Lemma submit_posted a r :
  submit_response up ok http a r =
  match ro_mode a, r with
  | DirectPost, Unencoded u => posted (ro_return a) (unencoded_form u)
  | DirectPostJwt, Jwt j => posted (ro_return a) (jwt_form j)
  | DirectPost, _ | DirectPostJwt, _ => ([], Err "unexpected AuthorizationResponse format")
  | DcApi, _ | DcApiJwt, _ => ([], Ok None)
  | UnsupportedMode _, _ => ([], Err "unsupported response_mode")
  end.
Proof.
  unfold submit_response.
  assert (P : forall body,
    (let! _ := lift (of_bool (ok (url_str (ro_return a))) "failed to construct request") in
    let! rs := send http (post_request (ro_return a) body) in
    let! _ := lift (of_bool (utf8_valid (rs_body rs)) "not UTF-8") in
    let! _ := lift (of_bool (is_success (rs_status rs)) "unsuccessful") in
    if all_white (rs_body rs) then ret None
    else
      let! j := lift (ok_or (json_of_text (rs_body rs)) "verifier response is not valid JSON") in
      match match j with
            | JObj m => match obj_get "redirect_uri" m with Some v => as_str v | None => None end
            | _ => None
            end with
      | None => ret None
      | Some s => let! u := lift (ok_or (up s) "invalid redirect_uri") in ret (Some u)
      end) = posted (ro_return a) body).
  { intros body. unfold posted. destruct (ok (url_str (ro_return a))); [|reflexivity].
    change (post_request (ro_return a) body) with (form_post (url_str (ro_return a)) body).
    unfold send, mbind, lift, emit, ret, of_bool. cbn [fst snd app].
    destruct (http (form_post (url_str (ro_return a)) body)) as [rs|e]; [|reflexivity]. cbn [fst snd app rbind].
    destruct (utf8_valid (rs_body rs)); [|reflexivity]. cbn [fst snd app rbind].
    destruct (is_success (rs_status rs)); [|reflexivity]. cbn [fst snd app rbind]. unfold answer.
    destruct (all_white (rs_body rs)); [reflexivity|].
    destruct (json_of_text (rs_body rs)) as [j|]; [|reflexivity]. cbn [ok_or rbind fst snd app].
    destruct (match j with JObj m => _ | _ => _ end) as [s|]; [|reflexivity].
    destruct (up s); reflexivity. }
  cbv zeta. destruct (ro_mode a); destruct r; rewrite ?P; reflexivity.
Qed.
Lemma answer_redirect body u : answer body = Ok (Some u) <-> redirects_to up body u.
Proof.
  unfold answer, redirects_to. destruct (all_white body) eqn:W.
  - apply white_iff, blank_not_json in W. rewrite W. split; [discriminate|]. intros (m & s & E & _). discriminate.
  - destruct (json_of_text body) as [j|]; cbn [ok_or rbind]; [|split; [discriminate|intros (m & s & E & _); discriminate]].
    split.
    + destruct j as [| | | | | |m]; try discriminate. destruct (obj_get "redirect_uri" m) as [v|] eqn:G; [|discriminate].
      destruct v as [| | | |s| |]; try discriminate. cbn [as_str]. destruct (up s) as [u'|] eqn:U; cbn [ok_or rbind]; [|discriminate].
      intros E. injection E as ->. eauto.
    + intros (m & s & E & G & U). injection E as ->. rewrite G. cbn [as_str]. now rewrite U.
Qed.
Lemma answer_none body : answer body = Ok None <-> no_redirect body.
Proof.
  unfold answer, no_redirect. destruct (all_white body) eqn:W.
  - apply white_iff in W. split; [intros _; now left|reflexivity].
  - assert (~ blank body) as NB by (intros B; apply white_iff in B; congruence).
    destruct (json_of_text body) as [j|]; cbn [ok_or rbind].
    + split.
      * intros H. right. exists j. split; [reflexivity|]. intros m s -> G. rewrite G in H. cbn [as_str] in H.
        destruct (up s); discriminate.
      * intros [B|(j' & E & N)]; [contradiction|]. injection E as <-. destruct j as [| | | | | |m]; try reflexivity.
        destruct (obj_get "redirect_uri" m) as [[| | | |s| |]|] eqn:G; try reflexivity. destruct (N m s eq_refl G).
    + split; [discriminate|]. intros [B|(j' & E & _)]; [contradiction|discriminate].
Qed.
Lemma posted_ok uri body x : snd (posted uri body) = Ok x <->
  exists rs, fst (posted uri body) = [EHttp (form_post (url_str uri) body)]
    /\ http (form_post (url_str uri) body) = Ok rs /\ (200 <= rs_status rs < 300)%N
    /\ utf8_valid (rs_body rs) = true /\ answer (rs_body rs) = Ok x.
Proof.
  unfold posted. destruct (ok (url_str uri)); cbn [fst snd].
  - destruct (http (form_post (url_str uri) body)) as [rs|e]; cbn [rbind].
    + assert (S : is_success (rs_status rs) = true <-> (200 <= rs_status rs < 300)%N).
      { unfold is_success. now rewrite andb_true_iff, N.leb_le, N.ltb_lt. }
      unfold of_bool. split.
      * destruct (utf8_valid (rs_body rs)) eqn:U; cbn [rbind]; [|discriminate].
        destruct (is_success (rs_status rs)) eqn:I; cbn [rbind]; [|discriminate].
        intros H. exists rs. tauto.
      * intros (rs' & _ & E & I & U & A). injection E as <-. apply S in I. rewrite I, U. exact A.
    + split; [discriminate|]. intros (rs & _ & E & _). discriminate.
  - split; [discriminate|]. intros (rs & E & _). discriminate.
Qed.
End Exchange.

(** C45: when the mode asks for the given kind of response (and the return URI is one HTTP can address),
    exactly one request is sent: a form POST to the request's return URI whose body the verifier reads as
    that very response.  Otherwise nothing is sent. *)
Lemma c45_traffic_pf :
  forall (url_parse : string -> option url) (uri_ok : string -> bool) (http : http_client) (a : aro)
         (r : auth_response),
    (kind_matches (ro_mode a) r -> uri_ok (url_str (ro_return a)) = true ->
       exists body, fst (submit_response url_parse uri_ok http a r)
                    = [EHttp (form_post (url_str (ro_return a)) body)]
         /\ (sendable r -> from_form body = Ok r))
    /\ (~ kind_matches (ro_mode a) r \/ uri_ok (url_str (ro_return a)) = false ->
       fst (submit_response url_parse uri_ok http a r) = []).
Proof.
  intros up ok http a r. rewrite submit_posted. split.
  - intros K U. destruct (ro_mode a), r; try destruct K; unfold posted; rewrite U.
    + exists (unencoded_form u). split; [reflexivity|]. intros (H1 & H2 & H3). destruct u as [t st].
      now apply c42_roundtrip_pf.
    + exists (jwt_form response). split; [reflexivity|]. apply c42_jwt_pf.
  - intros [K|U].
    + destruct (ro_mode a), r; try reflexivity; destruct K; exact I.
    + destruct (ro_mode a), r; try reflexivity; unfold posted; rewrite U; reflexivity.
Qed.

Definition toy_answer (body : string) : http_client := fun _ => Ok (mk_resp 200%N body).
Definition toy_aro_mode (mode : string) : option aro :=
  match aro_of_obj simple_parse (obj_insert "response_mode" (JStr mode) sample_request) with
  | Ok a => Some a
  | Err _ => None
  end.
Example c45_traffic_ex :
  (exists a, toy_aro_mode "direct_post" = Some a /\ kind_matches (ro_mode a) (Unencoded (mk_unencoded toy_token (Some "s"))))
  /\ (exists a, toy_aro_mode "direct_post.jwt" = Some a /\ kind_matches (ro_mode a) (Jwt "x"))
  /\ sendable (Unencoded (mk_unencoded toy_token (Some "&vp_token={}"))) /\ sendable (Jwt "x").
Proof.
  split; [eexists; split; [reflexivity|exact I]|]. split; [eexists; split; [reflexivity|exact I]|].
  split; [|reflexivity]. exact c42_roundtrip_ex.
Qed.

(** C45: in a Digital Credentials API mode nothing is sent and there is no redirect; a response of the wrong
    kind and an unsupported mode are errors. *)
Lemma c45_silent_pf :
  forall (url_parse : string -> option url) (uri_ok : string -> bool) (http : http_client) (a : aro)
         (r : auth_response),
    (ro_mode a = DcApi \/ ro_mode a = DcApiJwt -> submit_response url_parse uri_ok http a r = ([], Ok None))
    /\ (ro_mode a <> DcApi -> ro_mode a <> DcApiJwt -> ~ kind_matches (ro_mode a) r ->
        exists e, submit_response url_parse uri_ok http a r = ([], Err e)).
Proof.
  intros up ok http a r. rewrite submit_posted. split.
  - intros [->| ->]; reflexivity.
  - intros N1 N2 K. destruct (ro_mode a), r; try contradiction; try (destruct K; exact I); eexists; reflexivity.
Qed.

Example c45_silent_ex :
  exists a, toy_aro_mode "direct_post" = Some a /\ ro_mode a <> DcApi /\ ro_mode a <> DcApiJwt
  /\ ~ kind_matches (ro_mode a) (Jwt "x").
Proof. eexists. split; [reflexivity|]. repeat split; try discriminate. intros []. Qed.

(** C45: for a request object as received, whatever is sent goes to its response_uri. *)
Lemma c45_response_uri_pf :
  forall (url_parse : string -> option url) (uri_ok : string -> bool) (http : http_client) (o : obj) (a : aro)
         (r : auth_response) (e : wevent),
    aro_of_obj url_parse o = Ok a -> In e (fst (submit_response url_parse uri_ok http a r)) ->
    exists s u body, text_at "response_uri" o s /\ url_parse s = Some u /\ e = EHttp (form_post (url_str u) body).
Proof.
  intros up ok http o a r e Ha He.
  assert (P : ro_mode a = DirectPost \/ ro_mode a = DirectPostJwt).
  { rewrite submit_posted in He. destruct (ro_mode a), r; cbn in He; tauto. }
  destruct (c07_return_uri_pf _ _ _ Ha P) as (s & Hs & Hu). exists s, (ro_return a).
  rewrite submit_posted in He. unfold posted in He.
  destruct (ro_mode a), r; destruct (ok (url_str (ro_return a))); cbn in He; try tauto;
    destruct He as [<-|[]]; eauto.
Qed.

Example c45_response_uri_ex :
  exists a, toy_aro_mode "direct_post" = Some a
  /\ fst (submit_response simple_parse (fun _ => true) (toy_answer "") a (Unencoded (mk_unencoded [] None)))
     = [EHttp (form_post "https://v.example/resp" "vp_token=%7B%7D")].
Proof. eexists. split; vm_compute; reflexivity. Qed.

(** C46: submission returns a redirect URL exactly when a request was sent and the server answered it with a
    2xx status and a JSON object whose redirect_uri is the text of that URL. *)
Lemma c46_redirect_pf :
  forall (url_parse : string -> option url) (uri_ok : string -> bool) (http : http_client) (a : aro)
         (r : auth_response) (u : url),
    snd (submit_response url_parse uri_ok http a r) = Ok (Some u) <->
    exists rq status body, fst (submit_response url_parse uri_ok http a r) = [EHttp rq]
      /\ http rq = Ok (mk_resp status body) /\ (200 <= status < 300)%N /\ utf8_valid body = true
      /\ redirects_to url_parse body u.
Proof.
  intros up ok http a r u. rewrite submit_posted.
  assert (P : forall uri b, snd (posted up ok http uri b) = Ok (Some u) <->
    exists rq status body, fst (posted up ok http uri b) = [EHttp rq]
      /\ http rq = Ok (mk_resp status body) /\ (200 <= status < 300)%N /\ utf8_valid body = true
      /\ redirects_to up body u).
  { intros uri b. rewrite posted_ok. split.
    - intros ([st bd] & F & H & S & U & A). apply answer_redirect in A. eauto 10.
    - intros (rq & st & bd & F & H & S & U & A). exists (mk_resp st bd). apply answer_redirect in A.
      assert (rq = form_post (url_str uri) b).
      { unfold posted in F. destruct (ok (url_str uri)); cbn in F; congruence. }
      subst rq. auto. }
  destruct (ro_mode a), r; try apply P; cbn [fst snd];
    (split; [discriminate|]; intros (rq & st & bd & F & _); discriminate).
Qed.

Example c46_redirect_ex :
  exists a u, toy_aro_mode "direct_post" = Some a
  /\ snd (submit_response simple_parse (fun _ => true) (toy_answer "{""redirect_uri"":""https://v.example/done""}") a
            (Unencoded (mk_unencoded [] None))) = Ok (Some u)
  /\ url_str u = "https://v.example/done".
Proof. eexists. eexists. split; [reflexivity|]. split; vm_compute; reflexivity. Qed.

(** C46: submission succeeds without a redirect exactly when nothing had to be sent (Digital Credentials
    API), or the server answered with a 2xx status and a blank body or JSON without a textual
    redirect_uri. Every other outcome is an error. *)
Lemma c46_no_redirect_pf :
  forall (url_parse : string -> option url) (uri_ok : string -> bool) (http : http_client) (a : aro)
         (r : auth_response),
    snd (submit_response url_parse uri_ok http a r) = Ok None <->
    ro_mode a = DcApi \/ ro_mode a = DcApiJwt
    \/ exists rq status body, fst (submit_response url_parse uri_ok http a r) = [EHttp rq]
         /\ http rq = Ok (mk_resp status body) /\ (200 <= status < 300)%N /\ utf8_valid body = true
         /\ no_redirect body.
Proof.
  intros up ok http a r. rewrite submit_posted.
  assert (P : forall uri b, snd (posted up ok http uri b) = Ok None <->
    exists rq status body, fst (posted up ok http uri b) = [EHttp rq]
      /\ http rq = Ok (mk_resp status body) /\ (200 <= status < 300)%N /\ utf8_valid body = true
      /\ no_redirect body).
  { intros uri b. rewrite posted_ok. split.
    - intros ([st bd] & F & H & S & U & A). apply (answer_none up) in A.
      cbn [rs_status rs_body] in *. exists (form_post (url_str uri) b), st, bd.
      split; [exact F|]. split; [exact H|]. split; [exact S|]. split; [exact U|exact A].
    - intros (rq & st & bd & F & H & S & U & A). exists (mk_resp st bd). apply (answer_none up) in A.
      assert (rq = form_post (url_str uri) b).
      { unfold posted in F. destruct (ok (url_str uri)); cbn in F; congruence. }
      subst rq. auto. }
  destruct (ro_mode a), r; rewrite ?P; cbn [fst snd]; split; intros H; try tauto; try discriminate;
    try (destruct H as [H|[H|H]]; [discriminate|discriminate|exact H]);
    try (destruct H as [H|[H|(rq & st & bd & F & _)]]; discriminate).
Qed.

Example c46_no_redirect_ex :
  no_redirect " 
" /\ no_redirect "[1]" /\ no_redirect "{""redirect_uri"":3}" /\ ~ no_redirect "x".
Proof.
  assert (K : forall b, no_redirect b <-> answer (fun _ => None) b = Ok None) by (intros; symmetry; apply answer_none).
  rewrite !K. repeat split; vm_compute; try reflexivity. discriminate.
Qed.
