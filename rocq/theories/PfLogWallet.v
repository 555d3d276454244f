From Coq Require Import Lia ZArith.
From Verif Require Import Base BaseFacts Utf8 Json JsonFacts JsonText Serde Url UrlEncoded Object Formats Params Metadata Dcql
  Effects Jwt Request Response Jwe Session Builder Server ExMatcher ExWallet ExVerifier ExLog.
From Verif Require Import Spec SpecObject SpecRequest SpecExample PfBuilder PfResolve PfExample PfInterop SpecLog.

(* ------------------------------------------------------ wallets that differ in the text of credentials *)
Section Match.
Variable lower : string -> string.
Lemma find_alike (p : credential -> bool) : (forall c c', same_but_text c c' -> p c = p c') ->
  forall st st', Forall2 same_but_text st st' ->
  match find p st, find p st' with Some _, Some _ => True | None, None => True | _, _ => False end.
Proof.
  intros H st st' F. induction F as [|c c' st st' S F IH]; cbn [find]; [exact I|]. rewrite <- (H _ _ S). destruct (p c); [exact I|exact IH].
Qed.
Lemma match_alike st st' q : Forall2 same_but_text st st' ->
  match match_credential lower st q, match_credential lower st' q with Ok _, Ok _ => True | Err e, Err e' => e = e' | _, _ => False end.
Proof.
  intros F. unfold match_credential.
  assert (G : forall p, (forall c c', same_but_text c c' -> p c = p c') ->
    match ok_or (find p st) "no matching credential", ok_or (find p st') "no matching credential" with Ok _, Ok _ => True | Err e, Err e' => e = e' | _, _ => False end).
  { intros p H. pose proof (find_alike p H st st' F) as X. destruct (find p st), (find p st'); cbn; try contradiction; auto. }
  destruct (vct_values q) as [vcts|]; [|destruct (doctype_value q) as [dt|]; [|destruct (required_claims q) as [|c0 cs]]].
  - apply G. intros c c' (_ & E1 & E2 & _ & _). now rewrite E1, E2.
  - apply G. intros c c' (_ & E1 & _ & E3 & _). now rewrite E1, E3.
  - apply G. intros c c' (_ & E1 & _). now rewrite E1.
  - apply G. intros c c' (_ & E1 & _ & _ & E4). now rewrite E1, E4.
Qed.
Lemma match_lines_alike st st' qs : Forall2 same_but_text st st' -> match_lines lower st qs = match_lines lower st' qs.
Proof.
  intros F. induction qs as [|q qs IH]; [reflexivity|]. cbn [match_lines]. do 2 f_equal.
  pose proof (match_alike st st' q F) as X. destruct (match_credential lower st q), (match_credential lower st' q); try contradiction; [exact IH|reflexivity].
Qed.
Lemma sel_add_ids id raw raw' s s' : map fst s = map fst s' -> map fst (sel_add id raw s) = map fst (sel_add id raw' s').
Proof.
  revert s'. induction s as [|[k l] s IH]; intros [|[k' l'] s'] E; try discriminate E; [reflexivity|]. cbn [map fst] in E. injection E as -> E.
  cbn [sel_add]. destruct (String.eqb k' id); cbn [map fst]; [now rewrite E|]. now rewrite (IH s' E).
Qed.
Lemma match_all_alike st st' qs : Forall2 same_but_text st st' -> forall s s', map fst s = map fst s' ->
  match match_all lower st qs s, match_all lower st' qs s' with Ok x, Ok x' => map fst x = map fst x' | Err e, Err e' => e = e' | _, _ => False end.
Proof.
  intros F. induction qs as [|q qs IH]; intros s s' E; cbn [match_all]; [exact E|].
  pose proof (match_alike st st' q F) as X. destruct (match_credential lower st q), (match_credential lower st' q); try contradiction; cbn [rbind]; [|exact X].
  apply IH. now apply sel_add_ids.
Qed.
Lemma ids_length {A B} (x : list (string * A)) (x' : list (string * B)) : map fst x = map fst x' -> length x = length x'.
Proof. intros E. apply (f_equal (@length _)) in E. now rewrite !map_length in E. Qed.
End Match.

Lemma insert_ids k l l' t t' : map fst t = map fst t' -> map fst (vp_insert k l t) = map fst (vp_insert k l' t').
Proof.
  revert t'. induction t as [|[j v] t IH]; intros [|[j' v'] t'] E; try discriminate E; [reflexivity|]. cbn [map fst] in E. injection E as -> E.
  cbn [vp_insert]. destruct (String.eqb _ _); cbn [map fst]; [f_equal; exact E|]. f_equal. apply (IH t' E).
Qed.
Lemma token_ids (f g : string -> vp_item) (s s' : selection) : map fst s = map fst s' -> forall t t', map fst t = map fst t' ->
  map fst (fold_left (fun t (e : string * list string) => vp_insert (fst e) (map f (snd e)) t) s t) = map fst (fold_left (fun t (e : string * list string) => vp_insert (fst e) (map g (snd e)) t) s' t').
Proof.
  revert s'. induction s as [|[k l] s IH]; intros [|[k' l'] s'] E t t' T; try discriminate E; [exact T|]. cbn [map fst] in E. injection E as -> E.
  cbn [fold_left]. apply IH; [exact E|]. now apply insert_ids.
Qed.

Section W.
Variable up : string -> option url.
Variable ssi : obj -> option bool.
Variable uri_ok : string -> bool.
Variable jwk_ok : obj -> bool.
Variable enc : obj -> obj -> obj -> res string.
Variable lower : string -> string.
Variables sign sign' : string -> string.
Variables now now' : Z.
Variable http : http_client.
Variable endpoint : url.
Variables st st' : list credential.
Variable consent : bool.
Hypothesis Hs : Forall2 same_but_text st st'.
Hypothesis Hh : ignores_bodies http.
Hypothesis He : ignores_contents enc.

(** Any choice of lines, by level and text, that leaves out those with sizes. *)
Variable G : level -> string -> bool.
Hypothesis HG : G LvDebug "Submitting direct_post response" = false /\ G LvDebug "Submitting direct_post.jwt response" = false.
Definition chosen (x : line) : bool := G (ln_level x) (ln_text x).
Definition sift (w : list line) : list line := filter chosen w.
Lemma sift_cons x w : sift (x :: w) = if chosen x then x :: sift w else sift w.
Proof. reflexivity. Qed.
Lemma sift_app w w' : sift (w ++ w') = sift w ++ sift w'.
Proof. apply filter_app. Qed.
Lemma keep x w w' : sift w = sift w' -> sift (x :: w) = sift (x :: w').
Proof. rewrite !sift_cons. intros ->. reflexivity. Qed.
Lemma keep_app x w w' : sift w = sift w' -> sift (x ++ w) = sift (x ++ w').
Proof. rewrite !sift_app. intros ->. reflexivity. Qed.
Lemma engine_alike a : engine_lines lower st consent a = engine_lines lower st' consent a.
Proof.
  unfold engine_lines. destruct consent; [|reflexivity]. destruct (aro_dcql a) as [[q|]|]; try reflexivity. do 2 f_equal.
  rewrite (match_lines_alike lower st st' _ Hs). f_equal.
  pose proof (match_all_alike lower st st' (dq_credentials q) Hs [] [] eq_refl) as X.
  destruct (match_all lower st _ []) as [s|], (match_all lower st' _ []) as [s'|]; try contradiction; [|reflexivity].
  assert (L : length s = length s') by now apply ids_length. f_equal.
  - unfold set_lines. now rewrite X.
  - rewrite L. destruct s as [|x s], s' as [|x' s']; try reflexivity; discriminate L.
Qed.
Lemma process_alike a : match process_request lower st consent a, process_request lower st' consent a with
  | Ok s, Ok s' => map fst s = map fst s' | Err e, Err e' => e = e' | _, _ => False end.
Proof.
  unfold process_request. destruct (of_bool consent "user declined"); cbn [rbind]; [|reflexivity].
  destruct (match aro_dcql a with None => _ | Some r => _ end) as [q|]; cbn [rbind]; [|reflexivity]. unfold match_query.
  pose proof (match_all_alike lower st st' (dq_credentials q) Hs [] [] eq_refl) as X.
  destruct (match_all lower st _ []) as [s|], (match_all lower st' _ []) as [s'|]; try contradiction; cbn [rbind]; [|exact X].
  destruct s, s'; try discriminate X; [reflexivity|exact X].
Qed.
Lemma sealed_alike a vp vp' state :
  is_ok (encrypted_answer jwk_ok enc a vp state) = is_ok (encrypted_answer jwk_ok enc a vp' state).
Proof.
  unfold encrypted_answer. destruct (verifier_key jwk_ok a) as [i|]; [|reflexivity]. cbn [rbind]. unfold jb_set_key_json.
  destruct (jwk_of_text _ _) as [k|]; [|reflexivity]. cbn [rbind]. unfold jwe_build.
  destruct (ki_kid i); cbn.
  all: destruct (String.eqb (ki_alg i) "ECDH-ES"); [|reflexivity]; cbn [of_bool rbind].
  all: unfold response_payload; destruct state; cbn; apply He.
Qed.
Lemma deliver_alike e n n' u b b' : sift (deliver_lines up http e n u b) = sift (deliver_lines up http e n' u b').
Proof.
  unfold deliver_lines. rewrite !sift_cons. assert (P : http (plain_post u b) = http (plain_post u b')) by apply Hh. rewrite P. destruct HG as [G1 G2]. unfold chosen. destruct e; cbn [ln_level ln_text]; [now rewrite G2|now rewrite G1].
Qed.
Lemma process_lines_alike p :
  sift (process_lines up ssi uri_ok jwk_ok enc lower sign now http endpoint st consent p)
  = sift (process_lines up ssi uri_ok jwk_ok enc lower sign' now' http endpoint st' consent p).
Proof.
  unfold process_lines. cbv zeta. apply keep.
  destruct (from_url up (build_request_url endpoint p) endpoint) as [ar|]; [|reflexivity].
  destruct (snd (resolve_request up ssi uri_ok http ar)) as [[a j]|]; [|reflexivity].
  apply keep. destruct (aro_dcql a) as [[q|]|]; [|reflexivity|reflexivity]. apply keep. rewrite engine_alike. apply keep_app.
  pose proof (process_alike a) as X.
  destruct (process_request lower st consent a) as [s|], (process_request lower st' consent a) as [s'|]; try contradiction; [|reflexivity].
  destruct (redirect_uri_bound a); [|reflexivity]. apply keep_app.
  set (aud := match ro_client_id a with Some c => c | None => "unknown-verifier" end).
  assert (L : length s = length s') by now apply ids_length.
  assert (V : vp_len (build_vp_token sign now s (ro_nonce a) aud) = vp_len (build_vp_token sign' now' s' (ro_nonce a) aud)).
  { apply ids_length. unfold build_vp_token. now apply token_ids. }
  rewrite L, V. do 3 apply keep. destruct (ro_mode a); try reflexivity; [apply deliver_alike|].
  destruct (verifier_key jwk_ok a); [|reflexivity].
  match goal with |- sift (match encrypted_answer _ _ _ ?v ?s with _ => _ end) = sift (match encrypted_answer _ _ _ ?v' _ with _ => _ end) => pose proof (sealed_alike a v v' s) as Y end.
  destruct (encrypted_answer _ _ _ _ _), (encrypted_answer _ _ _ _ _); try discriminate Y; [apply deliver_alike|reflexivity].
Qed.
Lemma sift_map p w w' : sift w = sift w' ->
  sift (map (fun x => mk_line (ln_level x) (ln_text x) (APairs (param_pairs p) :: ln_args x)) w)
  = sift (map (fun x => mk_line (ln_level x) (ln_text x) (APairs (param_pairs p) :: ln_args x)) w').
Proof.
  assert (M : forall w, sift (map (fun x => mk_line (ln_level x) (ln_text x) (APairs (param_pairs p) :: ln_args x)) w)
    = map (fun x => mk_line (ln_level x) (ln_text x) (APairs (param_pairs p) :: ln_args x)) (sift w)).
  { unfold sift. induction w0 as [|x v IH]; [reflexivity|]. cbn [map filter]. rewrite IH. unfold chosen at 1. cbn [ln_level ln_text].
    fold (chosen x). now destruct (chosen x). }
  intros E. rewrite !M, E. reflexivity.
Qed.
Lemma authorize_lines_alike post p :
  sift (authorize_lines up ssi uri_ok jwk_ok enc lower sign now http endpoint st consent post p)
  = sift (authorize_lines up ssi uri_ok jwk_ok enc lower sign' now' http endpoint st' consent post p).
Proof. unfold authorize_lines. apply sift_map. do 2 apply keep. apply process_lines_alike. Qed.
End W.

(* ------------------------------------------------------ the log and what happens *)
Definition failing (x : line) : bool := match ln_level x with LvError => true | _ => String.eqb (ln_text x) "Verifier returned error" end.
Lemma failing_spec x : failing x = true <-> reports_failure x.
Proof.
  unfold failing, reports_failure. split.
  - intros H. destruct (ln_level x); [now left|right; now apply String.eqb_eq..].
  - intros [->|E]; [reflexivity|]. rewrite E. destruct (ln_level x); reflexivity.
Qed.
Lemma existsb_none {A} (f : A -> bool) l : Forall (fun x => f x = false) l -> existsb f l = false.
Proof. induction 1 as [|x l E F IH]; [reflexivity|]. cbn [existsb]. now rewrite E. Qed.
(** Neither the matcher nor the engine itself reports a failure or a size. *)
Definition quiet (x : line) : Prop := failing x = false /\ gives_size x = false.
Lemma match_quiet lower st qs : Forall quiet (match_lines lower st qs).
Proof.
  induction qs as [|q qs IH]; cbn [match_lines]; [constructor|]. constructor; [now split|]. constructor; [now split|]. destruct (match_credential lower st q); [exact IH|constructor].
Qed.
Lemma set_quiet q s : Forall quiet (set_lines q s).
Proof.
  unfold set_lines. destruct (dq_sets q) as [l|]; [|constructor]. constructor; [now split|]. induction l as [|c l IH]; cbn [flat_map]; [constructor|].
  apply Forall_app. split; [|exact IH]. destruct (_ && _); [|constructor]. constructor; [now split|constructor].
Qed.
Lemma engine_quiet lower st consent a : Forall quiet (engine_lines lower st consent a).
Proof.
  unfold engine_lines. constructor; [now split|]. destruct consent; [|constructor; [now split|constructor]].
  destruct (aro_dcql a) as [[q|]|]; [|constructor|constructor]. constructor; [now split|]. apply Forall_app. split; [apply match_quiet|].
  destruct (match_all _ _ _ _) as [s|]; [|constructor]. apply Forall_app. split; [apply set_quiet|]. destruct s; [constructor|]. constructor; [now split|constructor].
Qed.
Lemma quiet_failing w : Forall quiet w -> existsb failing w = false.
Proof. intros H. apply existsb_none. eapply Forall_impl; [|exact H]. intros x [A _]. exact A. Qed.
Lemma quiet_size w : Forall quiet w -> existsb gives_size w = false.
Proof. intros H. apply existsb_none. eapply Forall_impl; [|exact H]. intros x [_ A]. exact A. Qed.

Lemma deliver_failing up http e n u b : existsb failing (deliver_lines up http e n u b) = negb (is_ok (snd (deliver up http u b))).
Proof.
  unfold deliver_lines, deliver, send. destruct e; cbn [existsb failing ln_level ln_text orb String.eqb Ascii.eqb Bool.eqb].
  all: rewrite mbind_snd; cbn [mbind emit lift fst snd app]; destruct (http (plain_post u b)) as [rs|]; [|reflexivity].
  all: cbn [existsb failing ln_level ln_text orb String.eqb Ascii.eqb Bool.eqb]; rewrite lift_bind.
  all: destruct (is_success (rs_status rs)); [|reflexivity]; cbn [of_bool].
  all: destruct (match json_of_text _ with Some _ => _ | None => _ end) as [r|]; [|reflexivity].
  all: destruct (up r) as [r'|]; [destruct (http _)|]; reflexivity.
Qed.
Lemma deliver_sizes up http e n u b : existsb gives_size (deliver_lines up http e n u b) = true.
Proof. destruct e; reflexivity. Qed.
Section H.
Variable up : string -> option url.
Variable ssi : obj -> option bool.
Variable uri_ok : string -> bool.
Variable jwk_ok : obj -> bool.
Variable enc : obj -> obj -> obj -> res string.
Variable lower : string -> string.
Variable sign : string -> string.
Variable now : Z.
Variable http : http_client.
Variable endpoint : url.
Variable st : list credential.
Variable consent : bool.
Lemma process_failing p : existsb failing (process_lines up ssi uri_ok jwk_ok enc lower sign now http endpoint st consent p)
  = negb (is_ok (snd (authorize up ssi uri_ok jwk_ok enc lower sign now http endpoint st consent p))).
Proof.
  unfold process_lines, authorize. cbv zeta. cbn [existsb]. change (failing (mk_line LvDebug "Constructed authorization request URL" _)) with false. cbn [orb].
  rewrite lift_bind. destruct (from_url up (build_request_url endpoint p) endpoint) as [ar|]; [|reflexivity].
  rewrite mbind_snd. destruct (snd (resolve_request up ssi uri_ok http ar)) as [[a j]|]; [|reflexivity].
  cbn [existsb]. change (failing (mk_line LvDebug "Authorization request resolved successfully" _)) with false. cbn [orb].
  rewrite lift_bind. destruct (aro_dcql a) as [[q|]|] eqn:Q; [|reflexivity|reflexivity]. cbn [context].
  cbn [existsb]. change (failing (mk_line LvDebug "Extracted DCQL query" _)) with false. cbn [orb].
  rewrite existsb_app, (quiet_failing _ (engine_quiet lower st consent a)). cbn [orb].
  rewrite lift_bind. destruct (process_request lower st consent a) as [s|]; [|reflexivity].
  rewrite lift_bind. destruct (redirect_uri_bound a); [|reflexivity]. cbn [of_bool].
  rewrite existsb_app. assert (Z : existsb failing (match ro_client_id a with Some c => if starts_with "redirect_uri:" c then [mk_line LvDebug "Security check passed: response_uri matches client_id" []] else [] | None => [] end) = false).
  { destruct (ro_client_id a) as [c|]; [|reflexivity]. now destruct (starts_with "redirect_uri:" c). }
  rewrite Z. clear Z. cbn [orb existsb].
  change (failing (mk_line LvDebug "Building vp_token" _)) with false. change (failing (mk_line LvInfo "Successfully built vp_token" _)) with false.
  change (failing (mk_line LvInfo "Submitting response" _)) with false. cbn [orb].
  destruct (ro_mode a); [apply deliver_failing| |reflexivity|reflexivity|reflexivity].
  destruct (verifier_key jwk_ok a) as [i|] eqn:K.
  - rewrite lift_bind. destruct (encrypted_answer _ _ _ _ _); [apply deliver_failing|reflexivity].
  - rewrite lift_bind. unfold encrypted_answer. rewrite K. reflexivity.
Qed.
End H.
Section H2.
Variable up : string -> option url.
Variable ssi : obj -> option bool.
Variable uri_ok : string -> bool.
Variable jwk_ok : obj -> bool.
Variable enc : obj -> obj -> obj -> res string.
Variable lower : string -> string.
Variable sign : string -> string.
Variable now : Z.
Variable http : http_client.
Variable endpoint : url.
Variable st : list credential.
Variable consent : bool.
Definition nothing {A} (l : list A) : bool := match l with [] => true | _ => false end.
Lemma process_sizes p : existsb gives_size (process_lines up ssi uri_ok jwk_ok enc lower sign now http endpoint st consent p)
  = negb (nothing (posts (http_events (fst (authorize up ssi uri_ok jwk_ok enc lower sign now http endpoint st consent p))))).
Proof.
  unfold process_lines, authorize. cbv zeta. cbn [existsb]. change (gives_size (mk_line LvDebug "Constructed authorization request URL" _)) with false. cbn [orb].
  rewrite lift_bind. destruct (from_url up (build_request_url endpoint p) endpoint) as [ar|]; [|reflexivity].
  rewrite mbind_fst, http_app, posts_app, posts_resolve. cbn [app].
  destruct (snd (resolve_request up ssi uri_ok http ar)) as [[a j]|]; [|reflexivity].
  cbn [existsb]. change (gives_size (mk_line LvDebug "Authorization request resolved successfully" _)) with false. cbn [orb].
  rewrite lift_bind. destruct (aro_dcql a) as [[q|]|] eqn:Q; [|reflexivity|reflexivity]. cbn [context].
  cbn [existsb]. change (gives_size (mk_line LvDebug "Extracted DCQL query" _)) with false. cbn [orb].
  rewrite existsb_app, (quiet_size _ (engine_quiet lower st consent a)). cbn [orb].
  rewrite lift_bind. destruct (process_request lower st consent a) as [s|]; [|reflexivity].
  rewrite lift_bind. destruct (redirect_uri_bound a); [|reflexivity]. cbn [of_bool].
  rewrite existsb_app. assert (Z : existsb gives_size (match ro_client_id a with Some c => if starts_with "redirect_uri:" c then [mk_line LvDebug "Security check passed: response_uri matches client_id" []] else [] | None => [] end) = false).
  { destruct (ro_client_id a) as [c|]; [|reflexivity]. now destruct (starts_with "redirect_uri:" c). }
  rewrite Z. clear Z. cbn [orb existsb].
  change (gives_size (mk_line LvDebug "Building vp_token" _)) with false. change (gives_size (mk_line LvInfo "Successfully built vp_token" _)) with false.
  change (gives_size (mk_line LvInfo "Submitting response" _)) with false. cbn [orb].
  destruct (ro_mode a); [rewrite deliver_sizes, posts_deliver; reflexivity| |reflexivity|reflexivity|reflexivity].
  destruct (verifier_key jwk_ok a) as [i|] eqn:K.
  - rewrite lift_bind. destruct (encrypted_answer _ _ _ _ _); [rewrite deliver_sizes, posts_deliver; reflexivity|reflexivity].
  - rewrite lift_bind. unfold encrypted_answer. rewrite K. reflexivity.
Qed.
End H2.
Lemma spanned (g : line -> bool) (G : level -> string -> bool) p w : (forall x, g x = G (ln_level x) (ln_text x)) ->
  existsb g (map (fun x => mk_line (ln_level x) (ln_text x) (APairs (param_pairs p) :: ln_args x)) w) = existsb g w.
Proof. intros E. induction w as [|x w IH]; [reflexivity|]. cbn [map existsb]. rewrite IH, !E. reflexivity. Qed.

(** C138: nothing the example wallet logs, at any level, tells anything of the text of the credentials it holds or of the
    key that signs: wallets that differ only in those leave the same log, but for the size of the answer. *)
Lemma c138_credentials_pf
  : forall (url_parse : string -> option url) (ssi_header : obj -> option bool) (uri_ok : string -> bool)
      (jwk_ok : obj -> bool) (jwe_encrypt : obj -> obj -> obj -> res string) (lower sign sign' : string -> string) (now now' : Z)
      (http : http_client) (endpoint : url) (store store' : list credential) (auto_consent post : bool) (p : params),
    Forall2 same_but_text store store' -> ignores_bodies http -> ignores_contents jwe_encrypt ->
    but_sizes (authorize_lines url_parse ssi_header uri_ok jwk_ok jwe_encrypt lower sign now http endpoint store auto_consent post p)
    = but_sizes (authorize_lines url_parse ssi_header uri_ok jwk_ok jwe_encrypt lower sign' now' http endpoint store' auto_consent post p).
Proof.
  intros up ssi uok jok enc lower sign sign' now now' http ep st st' consent post p Hs Hh He.
  refine (authorize_lines_alike up ssi uok jok enc lower sign sign' now now' http ep st st' consent Hs Hh He
    (fun _ t => negb (String.eqb t "Submitting direct_post response" || String.eqb t "Submitting direct_post.jwt response")) _ post p).
  split; reflexivity.
Qed.

(** C138: at the default level not even the size shows. *)
Lemma c138_ordinary_pf
  : forall (url_parse : string -> option url) (ssi_header : obj -> option bool) (uri_ok : string -> bool)
      (jwk_ok : obj -> bool) (jwe_encrypt : obj -> obj -> obj -> res string) (lower sign sign' : string -> string) (now now' : Z)
      (http : http_client) (endpoint : url) (store store' : list credential) (auto_consent post : bool) (p : params),
    Forall2 same_but_text store store' -> ignores_bodies http -> ignores_contents jwe_encrypt ->
    ordinary_log (authorize_lines url_parse ssi_header uri_ok jwk_ok jwe_encrypt lower sign now http endpoint store auto_consent post p)
    = ordinary_log (authorize_lines url_parse ssi_header uri_ok jwk_ok jwe_encrypt lower sign' now' http endpoint store' auto_consent post p).
Proof.
  intros up ssi uok jok enc lower sign sign' now now' http ep st st' consent post p Hs Hh He.
  refine (authorize_lines_alike up ssi uok jok enc lower sign sign' now now' http ep st st' consent Hs Hh He
    (fun l _ => match l with LvError => true | LvWarn => true | LvInfo => true | LvDebug => false | LvTrace => false end) _ post p).
  split; reflexivity.
Qed.

(** C138: the parameters of the request, with its nonce and its state, are attached to every line at every level. *)
Lemma c138_parameters_pf
  : forall (url_parse : string -> option url) (ssi_header : obj -> option bool) (uri_ok : string -> bool)
      (jwk_ok : obj -> bool) (jwe_encrypt : obj -> obj -> obj -> res string) (lower sign : string -> string) (now : Z)
      (http : http_client) (endpoint : url) (store : list credential) (auto_consent post : bool) (p : params),
    let w := authorize_lines url_parse ssi_header uri_ok jwk_ok jwe_encrypt lower sign now http endpoint store auto_consent post p in
    ordinary_log w <> []
    /\ forall x, In x w -> exists l, In (APairs l) (ln_args x)
         /\ (forall v, pa_state p = Some v -> In ("state", v) l) /\ (forall v, pa_nonce p = Some v -> In ("nonce", v) l)
         /\ (forall v, pa_request p = Some v -> In ("request", v) l).
Proof.
  intros up ssi uok jok enc lower sign now http ep st consent post p w. split; [discriminate|].
  intros x H. unfold w, authorize_lines in H. apply in_map_iff in H as (y & <- & _). exists (param_pairs p). split; [now left|].
  unfold param_pairs. repeat split; intros v E; apply in_flat_map.
  - exists ("state", pa_state p). split; [cbn; auto 10|]. rewrite E. now left.
  - exists ("nonce", pa_nonce p). split; [cbn; auto 10|]. rewrite E. now left.
  - exists ("request", pa_request p). split; [cbn; auto 10|]. rewrite E. now left.
Qed.

(** C138: a request fails exactly when the log, at the default level, reports a failure. *)
Lemma c138_failures_pf
  : forall (url_parse : string -> option url) (ssi_header : obj -> option bool) (uri_ok : string -> bool)
      (jwk_ok : obj -> bool) (jwe_encrypt : obj -> obj -> obj -> res string) (lower sign : string -> string) (now : Z)
      (http : http_client) (endpoint : url) (store : list credential) (auto_consent post : bool) (p : params),
    (exists e, snd (authorize url_parse ssi_header uri_ok jwk_ok jwe_encrypt lower sign now http endpoint store auto_consent p) = Err e)
    <-> exists x, In x (authorize_lines url_parse ssi_header uri_ok jwk_ok jwe_encrypt lower sign now http endpoint store auto_consent post p)
          /\ reports_failure x.
Proof.
  intros up ssi uok jok enc lower sign now http ep st consent post p.
  assert (X : existsb failing (authorize_lines up ssi uok jok enc lower sign now http ep st consent post p)
    = negb (is_ok (snd (authorize up ssi uok jok enc lower sign now http ep st consent p)))).
  { unfold authorize_lines. rewrite (spanned failing (fun l t => match l with LvError => true | _ => String.eqb t "Verifier returned error" end)) by reflexivity.
    cbn [existsb]. rewrite process_failing. now destruct post. }
  generalize dependent (snd (authorize up ssi uok jok enc lower sign now http ep st consent p)).
  generalize dependent (authorize_lines up ssi uok jok enc lower sign now http ep st consent post p). intros w r X. split.
  - intros (e & ->). cbn in X. apply existsb_exists in X as (x & I & F). exists x. split; [exact I|now apply failing_spec].
  - intros (x & I & F). assert (Y : existsb failing w = true) by (apply existsb_exists; exists x; split; [exact I|now apply failing_spec]).
    rewrite Y in X. destruct r as [v|e]; [discriminate X|]. now exists e.
Qed.

(** C138: something is sent to the verifier exactly when a line of the log gives the size of the answer. *)
Lemma c138_sent_pf
  : forall (url_parse : string -> option url) (ssi_header : obj -> option bool) (uri_ok : string -> bool)
      (jwk_ok : obj -> bool) (jwe_encrypt : obj -> obj -> obj -> res string) (lower sign : string -> string) (now : Z)
      (http : http_client) (endpoint : url) (store : list credential) (auto_consent post : bool) (p : params),
    posts (http_events (fst (authorize url_parse ssi_header uri_ok jwk_ok jwe_encrypt lower sign now http endpoint store auto_consent p))) <> []
    <-> exists x, In x (authorize_lines url_parse ssi_header uri_ok jwk_ok jwe_encrypt lower sign now http endpoint store auto_consent post p)
          /\ gives_size x = true.
Proof.
  intros up ssi uok jok enc lower sign now http ep st consent post p.
  assert (X : existsb gives_size (authorize_lines up ssi uok jok enc lower sign now http ep st consent post p)
    = negb (nothing (posts (http_events (fst (authorize up ssi uok jok enc lower sign now http ep st consent p)))))).
  { unfold authorize_lines. rewrite (spanned gives_size (fun _ t => String.eqb t "Submitting direct_post response" || String.eqb t "Submitting direct_post.jwt response")) by reflexivity.
    cbn [existsb]. rewrite process_sizes. now destruct post. }
  generalize dependent (posts (http_events (fst (authorize up ssi uok jok enc lower sign now http ep st consent p)))).
  generalize dependent (authorize_lines up ssi uok jok enc lower sign now http ep st consent post p). intros w r X. split.
  - intros N. destruct r as [|x0 r]; [now destruct N|]. cbn in X. apply existsb_exists in X as (x & I & F). exists x. auto.
  - intros (x & I & F). assert (Y : existsb gives_size w = true) by (apply existsb_exists; exists x; auto).
    rewrite Y in X. destruct r as [|x0 r]; [discriminate X|]. discriminate.
Qed.

(* ------------------------------------------------------ concrete cases *)
Definition log_params : params :=
  ex_params (Some "redirect_uri:https://v.example/resp") (ex_object "redirect_uri:https://v.example/resp").
Definition log_run (http : http_client) (st : list credential) : list line :=
  authorize_lines simple_parse any_header (fun _ => true) (fun _ => true) (fun h c k => Ok (jprint (JArr [JObj h; JObj c])))
    (fun s => s) (fun _ => "S") 5 http ex_endpoint st true false log_params.
Definition other_pid : credential := mk_credential (mc_id pid) (mc_format pid) (mc_vct pid) (mc_doctype pid) "other~text" (mc_claims pid).
Definition echo : http_client := fun r => Ok (mk_resp 400 (rq_body r)).
Definition log_posted (http : http_client) : list http_req :=
  posts (http_events (fst (authorize simple_parse any_header (fun _ => true) (fun _ => true) (fun h c k => Ok (jprint (JArr [JObj h; JObj c])))
    (fun s => s) (fun _ => "S") 5 http ex_endpoint [pid] true log_params))).

Example c138_credentials_ex :
  Forall2 same_but_text [pid] [other_pid] /\ String.eqb (mc_raw pid) (mc_raw other_pid) = false /\ ignores_bodies (serve 200 "{}")
  /\ ignores_contents (fun h c k => Ok (jprint (JArr [JObj h; JObj c]))) /\ existsb gives_size (log_run (serve 200 "{}") [pid]) = true.
Proof.
  split; [constructor; [repeat split|constructor]|]. split; [vm_compute; reflexivity|]. split; [intros ? ? ? ? ?; reflexivity|].
  split; [intros ? ? ? ?; reflexivity|]. vm_compute. reflexivity.
Qed.
Example c138_ordinary_ex :
  Forall2 same_but_text [pid] [other_pid] /\ ignores_bodies (serve 200 "{}")
  /\ map ln_text (ordinary_log (log_run (serve 200 "{}") [pid]))
     = ["Received authorization request (GET)"; "Processing authorization request (headless mode)"; "Successfully matched credentials";
        "Successfully built vp_token"; "Submitting response"; "Verifier response received"].
Proof. split; [constructor; [repeat split|constructor]|]. split; [intros ? ? ? ? ?; reflexivity|]. vm_compute. reflexivity. Qed.
Example c138_parameters_ex : forallb (fun x => existsb (fun a => match a with APairs _ => true | _ => false end) (ln_args x)) (log_run echo [pid]) = true.
Proof. vm_compute. reflexivity. Qed.
Example c138_failures_ex :
  is_ok (snd (ex_run (Some "redirect_uri:https://e.example/") (ex_object "redirect_uri:https://e.example/"))) = false
  /\ existsb failing (log_run (serve 200 "{}") [pid]) = false /\ existsb failing (log_run echo [pid]) = true.
Proof. vm_compute. auto. Qed.
Example c138_sent_ex : match log_posted (serve 200 "{}") with [r] => rq_uri r | _ => EmptyString end = "https://v.example/resp".
Proof. vm_compute. reflexivity. Qed.

(** C138: the answer itself is written to the log, at the default level, when a verifier that refuses it sends it back. *)
Lemma c138_echo_refuted_pf
  : exists (url_parse : string -> option url) (ssi_header : obj -> option bool) (uri_ok : string -> bool)
      (jwk_ok : obj -> bool) (jwe_encrypt : obj -> obj -> obj -> res string) (lower sign : string -> string) (now : Z)
      (http : http_client) (endpoint : url) (store : list credential) (auto_consent post : bool) (p : params) (r : http_req) (x : line),
    posts (http_events (fst (authorize url_parse ssi_header uri_ok jwk_ok jwe_encrypt lower sign now http endpoint store auto_consent p))) = [r]
    /\ In x (ordinary_log (authorize_lines url_parse ssi_header uri_ok jwk_ok jwe_encrypt lower sign now http endpoint store auto_consent post p))
    /\ In (AText (rq_body r)) (ln_args x).
Proof.
  assert (X : match log_posted echo with
    | [r] => existsb (fun x => existsb (fun a => match a with AText s => String.eqb s (rq_body r) | _ => false end) (ln_args x)) (ordinary_log (log_run echo [pid]))
    | _ => false end = true) by (vm_compute; reflexivity).
  assert (Y : exists r x, log_posted echo = [r] /\ In x (ordinary_log (log_run echo [pid])) /\ In (AText (rq_body r)) (ln_args x)).
  { generalize dependent (log_posted echo). generalize (ordinary_log (log_run echo [pid])). intros w ps X.
    destruct ps as [|r [|r2 ps]]; try discriminate X. apply existsb_exists in X as (x & I & X). apply existsb_exists in X as (y & J & X).
    exists r, x. split; [reflexivity|]. split; [exact I|]. destruct y; try discriminate X. apply String.eqb_eq in X. subst s. exact J. }
  exists simple_parse, any_header, (fun _ => true), (fun _ => true), (fun h c k => Ok (jprint (JArr [JObj h; JObj c]))), (fun s => s), (fun _ => "S"), 5%Z, echo, ex_endpoint, [pid], true, false, log_params. exact Y.
Qed.
