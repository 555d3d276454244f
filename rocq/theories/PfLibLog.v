From Coq Require Import Lia.
From Verif Require Import Base BaseFacts Utf8 Json JsonFacts JsonText JsonTextFacts Base64 Base64Facts Sha256 Url Serde Object Formats Params Metadata
  Effects Jwt Request Verify Response Jwe X509 Client LibLog MapFacts Spec SpecObject SpecRequest SpecVerify SpecJwe SpecLibLog ParamFacts PfText PfRequest PfVerify PfResponse PfJwe PfDid PfX509 PfIgnored.

(* ------------------------------------------------------------ keys *)
Lemma maybe_none n k : key_str n k = None <-> maybe_text n k None.
Proof. apply maybe_iff. Qed.
Lemma reason_of k : enc_candidate k = false -> exists m, key_entries k = [(Debug, m)] /\ not_used_because k m.
Proof.
  unfold enc_candidate, key_entries. destruct (key_str "alg" k) as [a|] eqn:A.
  2:{ intros _. eexists. split; [reflexivity|]. apply for_no_alg. now apply maybe_none. }
  apply key_str_some in A. destruct (String.eqb_spec a "ECDH-ES") as [->|Na]; cbn [negb].
  2:{ intros _. eexists. split; [reflexivity|]. now apply for_alg. }
  destruct (key_str "crv" k) as [c|] eqn:C.
  2:{ intros _. eexists. split; [reflexivity|]. apply for_no_crv; [exact A|]. now apply maybe_none. }
  apply key_str_some in C. destruct (String.eqb_spec c "P-256") as [->|Nc]; cbn [negb].
  2:{ intros _. eexists. split; [reflexivity|]. now apply for_crv. }
  destruct (key_str "use" k) as [u|] eqn:U; [|discriminate]. apply key_str_some in U.
  destruct (String.eqb_spec u "enc") as [->|Nu]; [discriminate|].
  intros _. eexists. split; [reflexivity|]. now apply for_use.
Qed.
Lemma warned_of k : enc_candidate k = true -> unmarked k (key_entries k).
Proof.
  unfold enc_candidate, key_entries, unmarked. destruct (key_str "alg" k) as [a|]; [|discriminate].
  destruct (String.eqb a "ECDH-ES"); cbn [negb]; [|discriminate].
  destruct (key_str "crv" k) as [c|]; [|discriminate]. destruct (String.eqb c "P-256"); cbn [negb]; [|discriminate].
  destruct (key_str "use" k) as [u|] eqn:U.
  - destruct (String.eqb_spec u "enc") as [->|]; [|discriminate]. apply key_str_some in U. now left.
  - intros _. right. split; [now apply maybe_none|reflexivity].
Qed.
Lemma not_candidate k : ~ encryption_key k -> enc_candidate k = false.
Proof. intros H. destruct (enc_candidate k) eqn:E; [|reflexivity]. apply candidate_iff in E. contradiction. Qed.
Lemma skipping a r : (forall k, In k a -> ~ encryption_key k) -> exists es, explained a es /\ find_entries (a ++ r) = es ++ find_entries r.
Proof.
  induction a as [|k a IH]; intros H; [exists []; split; [constructor|reflexivity]|].
  destruct IH as (es & X & E); [intros x Hx; apply H; now right|].
  assert (C : enc_candidate k = false) by (apply not_candidate, H; now left).
  destruct (reason_of k C) as (m & K & R). exists ((Debug, m) :: es). split.
  - constructor; [|exact X]. exists m. auto.
  - cbn [app find_entries]. rewrite K, C, E. reflexivity.
Qed.

(** C140: the log explains the choice of the encryption key: each key of the verifier that is passed over before it has one
    entry, in order, with the reason, and there is a warning exactly when the key chosen does not say what it is for. *)
Lemma c140_choice_pf
  : forall (keys : list obj),
    ((forall k, In k keys -> ~ encryption_key k) -> explained keys (find_entries keys))
    /\ forall before k after, keys = before ++ k :: after -> encryption_key k -> (forall k', In k' before -> ~ encryption_key k') ->
         exists es w, explained before es /\ unmarked k w /\ find_entries keys = es ++ w.
Proof.
  intros keys. split.
  - intros H. destruct (skipping keys [] H) as (es & X & E). rewrite app_nil_r in E. rewrite E. cbn [find_entries]. now rewrite app_nil_r.
  - intros before k after -> K H. destruct (skipping before (k :: after) H) as (es & X & E).
    apply candidate_iff in K. exists es, (key_entries k). split; [exact X|]. split; [now apply warned_of|].
    rewrite E. cbn [find_entries]. rewrite K. now rewrite app_nil_r.
Qed.
Example c140_choice_ex :
  find_entries [key_p256 "sig" "1"; [("alg", JStr "RSA-OAEP")]; [("alg", JStr "ECDH-ES"); ("crv", JStr "P-256")]; key_p256 "enc" "2"]
  = [(Debug, "JWK has use='sig', not suitable for encryption"); (Debug, "JWK has unsupported alg 'RSA-OAEP', skipping");
     (Warn, "JWK missing 'use' parameter, assuming it can be used for encryption")].
Proof. vm_compute. reflexivity. Qed.

(* ------------------------------------------------------------ encrypted responses *)
(** C140: what is logged while a response is encrypted depends on the request alone; of the presentations and the state it
    tells nothing, except that the response could be built. *)
Lemma c140_presentations_pf
  : forall (show_kid : option string -> string) (jwk_ok : obj -> bool) (jwe_encrypt : obj -> obj -> obj -> res string) (a : aro),
    exists common, forall (vp : vp_token) (st : option string),
      encrypt_entries show_kid jwk_ok jwe_encrypt a vp st
      = common ++ match build_encrypted_response jwk_ok jwe_encrypt a vp st with
                  | Ok _ => [(Debug, "JWE response built successfully")]
                  | Err _ => []
                  end.
Proof.
  intros sk ok enc a. unfold encrypt_entries. unfold build_encrypted_response at 2.
  destruct (resolve_client_metadata a) as [cm|e] eqn:R; cbn [rbind].
  2:{ eexists. intros vp st. symmetry. apply app_nil_r. }
  destruct (parsing_error (cm_jwks cm)) as [keys|e] eqn:K; cbn [rbind].
  2:{ eexists. intros vp st. symmetry. apply app_nil_r. }
  destruct (find_encryption_jwk ok keys) as [info|e] eqn:F; cbn [rbind].
  2:{ eexists. intros vp st. symmetry. apply app_nil_r. }
  destruct (cm_encs cm) as [encs|e] eqn:E; cbn [rbind].
  2:{ eexists. intros vp st. symmetry. apply app_nil_r. }
  exists ((Debug, "Building JWE encrypted response") :: resolve_entries a ++ find_entries keys ++
    [(Debug, "Selected encryption key: alg=" +:+ ki_alg info +:+ ", kid=" +:+ sk (ki_kid info));
     (Debug, "Using content encryption algorithm: " +:+ match encs with e :: _ => e | [] => DEFAULT_ENC end)]).
  intros vp st. unfold build_encrypted_response. rewrite R. cbn [rbind]. rewrite K. cbn [rbind]. rewrite F. cbn [rbind]. rewrite E. cbn [rbind].
  cbn [app]. rewrite <- !app_assoc. reflexivity.
Qed.
Definition toy_kid (o : option string) : string := match o with Some k => k | None => "None" end.
Definition logged_of (keys : list obj) (fails : bool) (vp : vp_token) : res (list entry) :=
  let? a := aro_of_obj simple_parse (enc_request [] keys) in
  Ok (encrypt_entries toy_kid (fun _ => true) (fun h c k => if fails then Err "no" else Ok "jwe") a vp (Some "s")).
Example c140_presentations_ex :
  logged_of [key_p256 "sig" "1"; key_p256 "enc" "2"] false [("a", [VpString "secret"])]
  = Ok [(Debug, "Building JWE encrypted response"); (Debug, "JWK has use='sig', not suitable for encryption");
        (Debug, "Selected encryption key: alg=ECDH-ES, kid=2"); (Debug, "Using content encryption algorithm: A128GCM");
        (Debug, "JWE response built successfully")]
  /\ logged_of [key_p256 "enc" "2"] true [("a", [VpString "secret"])]
  = Ok [(Debug, "Building JWE encrypted response"); (Debug, "Selected encryption key: alg=ECDH-ES, kid=2");
        (Debug, "Using content encryption algorithm: A128GCM")]
  /\ logged_of [] false [] = Ok [(Debug, "Building JWE encrypted response")].
Proof. split; [|split]; vm_compute; reflexivity. Qed.

(** C140: the log of a response that was built tells the truth about its encryption: the key passed to the encryption, its
    identifier and the content encryption are those the log names, and every key before it is accounted for. *)
Lemma c140_selected_pf
  : forall (show_kid : option string -> string) (jwk_ok : obj -> bool) (jwe_encrypt : obj -> obj -> obj -> res string)
      (a : aro) (vp : vp_token) (st : option string) (r : auth_response),
    parsed_key (aro_to_obj a) -> NoDup (map fst vp) -> build_encrypted_response jwk_ok jwe_encrypt a vp st = Ok r ->
    exists cm before key after kid enc header claims jwe es w,
      r = Jwt jwe /\ client_metadata (aro_to_obj a) cm /\ client_keys cm (before ++ key :: after)
      /\ maybe_text "kid" key kid /\ object_is header (jwe_members enc kid) /\ claims_of claims vp st
      /\ jwe_encrypt header claims key = Ok jwe
      /\ explained before es /\ unmarked key w
      /\ encrypt_entries show_kid jwk_ok jwe_encrypt a vp st
         = (Debug, "Building JWE encrypted response") :: es ++ w ++
           [(Debug, "Selected encryption key: alg=ECDH-ES, kid=" +:+ show_kid kid);
            (Debug, "Using content encryption algorithm: " +:+ enc);
            (Debug, "JWE response built successfully")].
Proof.
  intros sk ok en a vp st r Pa Nd B. pose proof B as H. apply c49_contents_pf in H; [|exact Pa|exact Nd].
  destruct H as (cm & keys & key & kid & encs & h & claims & jwe & Er & Ec & Ek & Hf & J & M & Ee & Hh & Hc & Ej).
  pose proof (parsed_keys _ _ _ Pa Ec Ek) as Pk.
  assert (Ef : find_encryption_jwk ok keys = Ok (mk_ki key "ECDH-ES" kid)) by (apply c47_selection_pf; auto).
  destruct Hf as (before & after & Eq & Kk & Kn).
  destruct (proj2 (c140_choice_pf keys) before key after Eq Kk Kn) as (es & w & X & W & F).
  exists cm, before, key, after, kid, (match encs with e :: _ => e | [] => "A128GCM" end), h, claims, jwe, es, w.
  split; [exact Er|]. split; [exact Ec|]. split; [rewrite <- Eq; exact Ek|]. do 4 (split; [assumption|]). split; [exact X|]. split; [exact W|].
  assert (R : resolve_entries a = []).
  { unfold resolve_entries. unfold client_metadata in Ec. unfold aro_get, uo_get, aro_to_obj in *. cbn [tp_key tp_of p_client_metadata].
    destruct (obj_get "client_metadata" (ro_inner a)) as [v|]; [reflexivity|].
    subst cm. destruct Ek as (v & G & _). discriminate G. }
  unfold encrypt_entries. rewrite R, B. apply metadata_get in Ec. rewrite Ec.
  assert (PE : parsing_error (cm_jwks cm) = Ok keys).
  { apply keys_get in Ek. unfold cm_jwks, parsing_error. destruct (uo_get p_jwks cm) as [[x|e]|]; cbn in *; congruence. }
  rewrite PE, F, Ef. apply encs_get in Ee. unfold cm_encs. rewrite Ee. cbn [ki_alg ki_kid app]. rewrite <- app_assoc. reflexivity.
Qed.
Example c140_selected_ex :
  parsed_key (enc_request [] [key_p256 "sig" "1"; key_p256 "enc" "2"])
  /\ is_ok (encrypted [] [key_p256 "sig" "1"; key_p256 "enc" "2"] [("b", [VpString "x"]); ("a", [])] (Some "s")) = true.
Proof. split; [split; [vm_compute; reflexivity|apply Nat.leb_le; vm_compute; reflexivity]|vm_compute; reflexivity]. Qed.

Lemma warns_of keys e : In e (find_entries keys) -> fst e = Warn -> e = (Warn, "JWK missing 'use' parameter, assuming it can be used for encryption").
Proof.
  induction keys as [|k keys IH]; intros I W; [contradiction|]. cbn [find_entries] in I. apply in_app_or in I as [I|I].
  - destruct (enc_candidate k) eqn:C.
    + destruct (warned_of k C) as [[_ E]|[_ E]]; rewrite E in I; [contradiction|]. destruct I as [<-|[]]. reflexivity.
    + destruct (reason_of k C) as (m & E & _). rewrite E in I. destruct I as [<-|[]]. discriminate W.
  - destruct (enc_candidate k); [contradiction|]. now apply IH.
Qed.
(** C140: a request without client metadata leaves the log saying so, and nothing more, and no response is built; the log
    says so of no other request. *)
Lemma c140_metadata_pf
  : forall (show_kid : option string -> string) (jwk_ok : obj -> bool) (jwe_encrypt : obj -> obj -> obj -> res string)
      (a : aro) (vp : vp_token) (st : option string),
    (absent "client_metadata" (aro_to_obj a) ->
       encrypt_entries show_kid jwk_ok jwe_encrypt a vp st
       = [(Debug, "Building JWE encrypted response"); (Warn, "the client metadata was not passed in the request")]
       /\ exists e, build_encrypted_response jwk_ok jwe_encrypt a vp st = Err e)
    /\ (In (Warn, "the client metadata was not passed in the request") (encrypt_entries show_kid jwk_ok jwe_encrypt a vp st) ->
       absent "client_metadata" (aro_to_obj a)).
Proof.
  intros sk ok en a vp st. unfold absent, aro_to_obj. split.
  - intros A. assert (R : resolve_client_metadata a = Ok []).
    { apply metadata_get. unfold client_metadata, aro_to_obj. rewrite A. reflexivity. }
    split.
    + unfold encrypt_entries. rewrite R. unfold resolve_entries, aro_get, uo_get. cbn [tp_key tp_of p_client_metadata]. rewrite A. reflexivity.
    + unfold build_encrypted_response. rewrite R. cbn [rbind]. eexists. reflexivity.
  - intros I. destruct (obj_get "client_metadata" (ro_inner a)) as [v|] eqn:G; [|reflexivity]. exfalso.
    assert (Q : resolve_entries a = []).
    { unfold resolve_entries, aro_get, uo_get. cbn [tp_key tp_of p_client_metadata]. rewrite G. reflexivity. }
    unfold encrypt_entries in I. rewrite Q in I. cbn [app] in I. destruct I as [I|I]; [discriminate I|].
    destruct (resolve_client_metadata a) as [cm|]; [|contradiction]. destruct (parsing_error (cm_jwks cm)) as [keys|]; [|contradiction].
    apply in_app_or in I as [I|I].
    + pose proof (warns_of keys _ I eq_refl) as E. discriminate E.
    + destruct (find_encryption_jwk ok keys) as [info|]; [|contradiction]. destruct I as [I|I]; [discriminate I|].
      destruct (cm_encs cm) as [encs|]; [|contradiction]. destruct I as [I|I]; [discriminate I|].
      destruct (build_encrypted_response ok en a vp st); [|contradiction]. destruct I as [I|[]]. discriminate I.
Qed.
Definition unwarned (client_metadata : option json) : res (list severity) :=
  let? a := aro_of_obj simple_parse (match client_metadata with Some v => obj_insert "client_metadata" v (enc_request [] []) | None => obj_remove "client_metadata" (enc_request [] []) end) in
  Ok (map fst (encrypt_entries toy_kid (fun _ => true) (fun h c k => Ok "jwe") a [] None)).
Example c140_metadata_ex : unwarned None = Ok [Debug; Warn] /\ unwarned (Some (JObj [])) = Ok [Debug].
Proof. split; vm_compute; reflexivity. Qed.

(* ------------------------------------------------------------ the typ header *)
Lemma typ_lookup h : match obj_get "typ" h with Some v => as_str v | None => None end = key_str "typ" h.
Proof. reflexivity. Qed.
(** C140: the wallet's leniency about the typ header leaves a trace: there is a warning exactly when a request object is
    accepted, for the redirect_uri prefix, that would have been refused otherwise, and it quotes the typ found. *)
Lemma c140_lenient_pf
  : forall (jwt : string) (redirect : bool),
    (typ_entries jwt redirect <> [] <-> redirect = true /\ validate_typ jwt true = Ok tt /\ validate_typ jwt false <> Ok tt)
    /\ forall h64 p64 s64 h, compact jwt h64 p64 s64 -> header_text h64 h ->
         (forall t, text_at "typ" h t -> t <> "oauth-authz-req+jwt" ->
            typ_entries jwt true = [(Warn, "Request Object has incorrect 'typ' header '" +:+ t
              +:+ "' (expected 'oauth-authz-req+jwt'), but allowing for redirect_uri prefix per Section 5.9.3")])
         /\ (maybe_text "typ" h None ->
            typ_entries jwt true = [(Warn, "Request Object missing 'typ' header (expected 'oauth-authz-req+jwt'), but allowing for redirect_uri prefix per Section 5.9.3")]).
Proof.
  intros jwt redirect. split.
  - unfold typ_entries, validate_typ. destruct (split_jws jwt) as [[[h b] s]|e]; cbn [rbind].
    2:{ split; [intros H; now destruct H|]. intros (_ & H & _). discriminate H. }
    destruct (jws_headers h) as [hs|e]; cbn [rbind].
    2:{ split; [intros H; now destruct H|]. intros (_ & H & _). discriminate H. }
    rewrite typ_lookup. destruct (key_str "typ" hs) as [t|].
    + destruct (String.eqb t REQUEST_OBJECT_TYP).
      { split; [intros H; now destruct H|]. intros (_ & _ & H). now destruct H. }
      destruct redirect; split.
      * intros _. split; [reflexivity|]. split; [reflexivity|discriminate].
      * intros _. discriminate.
      * intros H. now destruct H.
      * intros [H _]. discriminate H.
    + destruct redirect; split.
      * intros _. split; [reflexivity|]. split; [reflexivity|discriminate].
      * intros _. discriminate.
      * intros H. now destruct H.
      * intros [H _]. discriminate H.
  - intros h64 p64 s64 h C H. apply split_iff in C. apply headers_iff in H. unfold typ_entries. rewrite C. cbn [rbind]. rewrite H. split.
    + intros t T Nt. apply key_str_some in T. rewrite T.
      destruct (String.eqb_spec t REQUEST_OBJECT_TYP) as [E|_]; [contradiction|]. reflexivity.
    + intros T. apply maybe_none in T. rewrite T. reflexivity.
Qed.
Definition typ_jwt (typ : string) : string := b64url_encode (jprint (JObj [("typ", JStr typ)])) +:+ ".e30.".
Example c140_lenient_ex :
  typ_entries (typ_jwt "JWT") true = [(Warn, "Request Object has incorrect 'typ' header 'JWT' (expected 'oauth-authz-req+jwt'), but allowing for redirect_uri prefix per Section 5.9.3")]
  /\ typ_entries (typ_jwt "JWT") false = [] /\ typ_entries (typ_jwt "oauth-authz-req+jwt") true = [].
Proof. split; [|split]; vm_compute; reflexivity. Qed.

Definition newline : string := String (Ascii.ascii_of_nat 10) EmptyString.
Lemma contains_in x a b : contains x (a +:+ x +:+ b).
Proof. exists a, b. reflexivity. Qed.
(** C140: a line of the log is not always the library's: whoever makes a request can make the wallet log any line they want,
    before anything about the request has been verified. *)
Lemma c140_forged_refuted_pf
  : forall (line : string), utf8_valid (newline +:+ line +:+ newline) = true ->
    exists jwt message, validate_typ jwt true = Ok tt /\ typ_entries jwt true = [(Warn, message)]
      /\ contains (newline +:+ line +:+ newline) message.
Proof.
  intros l V. remember (newline +:+ l +:+ newline) as t eqn:Et.
  assert (Nt : t <> "oauth-authz-req+jwt") by (subst t; discriminate).
  exists (typ_jwt t). eexists.
  assert (H : header_text (b64url_encode (jprint (JObj [("typ", JStr t)]))) [("typ", JStr t)]).
  { exists (jprint (JObj [("typ", JStr t)])). split; [apply b64_rt|]. apply json_text_rt; [|cbn; lia].
    unfold jwf. apply andb_true_iff. split; [|reflexivity]. cbn [jtext_ok forallb fst snd]. rewrite V. reflexivity. }
  assert (C : compact (typ_jwt t) (b64url_encode (jprint (JObj [("typ", JStr t)]))) "e30" "").
  { split; [reflexivity|]. split; [apply b64url_no_dot|reflexivity]. }
  split; [|split].
  - apply split_iff in C. apply headers_iff in H. unfold validate_typ. rewrite C. cbn [rbind]. rewrite H. cbn [rbind]. rewrite typ_lookup.
    replace (key_str "typ" [("typ", JStr t)]) with (Some t) by reflexivity. destruct (String.eqb t REQUEST_OBJECT_TYP); reflexivity.
  - apply (proj1 (proj2 (c140_lenient_pf (typ_jwt t) true) _ _ _ _ C H) t); [reflexivity|exact Nt].
  - apply contains_in.
Qed.
Example c140_forged_refuted_ex : utf8_valid (newline +:+ "2026-01-01 INFO wallet: request verified" +:+ newline) = true.
Proof. vm_compute. reflexivity. Qed.

(* ------------------------------------------------------------ names in certificates *)
Fixpoint walk (show_name : general_name -> string) (show_problem : extension -> string) (wanted : option string) (l : list item) : list entry * bool :=
  match l with
  | [] => ([], false)
  | Unreadable x :: r => let '(es, b) := walk show_name show_problem wanted r in ((Debug, "unable to parse SubjectAlternativeName from DER: " +:+ show_problem x) :: es, b)
  | Named (OtherName k x) :: r => let '(es, b) := walk show_name show_problem wanted r in ((Debug, "found non-DNS SAN: " +:+ show_name (OtherName k x)) :: es, b)
  | Named (DnsName d) :: r =>
      match wanted with
      | None => ([], true)
      | Some w =>
          let e := (Debug, "comparing SAN '" +:+ d +:+ "' to client_id '" +:+ w +:+ "'") in
          if String.eqb d w then ([e], true) else let '(es, b) := walk show_name show_problem wanted r in (e :: es, b)
      end
  end.
Lemma walk_names sn sp wanted l r :
  walk sn sp wanted (map Named l ++ r)
  = match name_entries sn wanted l with
    | (es, true) => (es, true)
    | (es, false) => let '(es', b) := walk sn sp wanted r in (es ++ es', b)
    end.
Proof.
  induction l as [|g l IH]; cbn [map app name_entries walk].
  - destruct (walk sn sp wanted r) as [es b]. reflexivity.
  - destruct g as [d|k x].
    + destruct wanted as [w|]; [|reflexivity]. destruct (String.eqb d w); [reflexivity|].
      rewrite IH. destruct (name_entries sn (Some w) l) as [es [|]]; [reflexivity|].
      destruct (walk sn sp (Some w) r) as [es' b]. reflexivity.
    + rewrite IH. destruct (name_entries sn wanted l) as [es [|]]; [reflexivity|].
      destruct (walk sn sp wanted r) as [es' b]. reflexivity.
Qed.
Lemma walk_all sn sp wanted l : extension_entries sn sp wanted l = walk sn sp wanted (flat_map items_of l).
Proof.
  induction l as [|x l IH]; [reflexivity|]. cbn [extension_entries flat_map]. unfold items_of at 1. destruct (x_names x) as [n|].
  - rewrite walk_names, IH. reflexivity.
  - cbn [app walk]. rewrite IH. reflexivity.
Qed.
Lemma walk_for sn sp w l : exists seen rest, l = seen ++ rest /\ Forall2 (says_of sn sp w) seen (fst (walk sn sp (Some w) l))
  /\ ((exists before, seen = before ++ [Named (DnsName w)] /\ ~ In (Named (DnsName w)) before)
      \/ rest = [] /\ ~ In (Named (DnsName w)) seen).
Proof.
  induction l as [|i l (seen & rest & -> & F & D)].
  { exists [], []. split; [reflexivity|]. split; [constructor|]. right. split; [reflexivity|intros []]. }
  assert (Step : forall e, says_of sn sp w i e -> i <> Named (DnsName w) ->
     exists seen' rest', i :: seen ++ rest = seen' ++ rest' /\ Forall2 (says_of sn sp w) seen' (e :: fst (walk sn sp (Some w) (seen ++ rest)))
       /\ ((exists before, seen' = before ++ [Named (DnsName w)] /\ ~ In (Named (DnsName w)) before)
           \/ rest' = [] /\ ~ In (Named (DnsName w)) seen')).
  { intros e S Ni. exists (i :: seen), rest. split; [reflexivity|]. split; [now constructor|]. destruct D as [(b & -> & Nb)|[-> Nb]].
    - left. exists (i :: b). split; [reflexivity|]. intros [E|H]; [now apply Ni|contradiction].
    - right. split; [reflexivity|]. intros [E|H]; [now apply Ni|contradiction]. }
  destruct i as [x|[d|k x]]; cbn [walk].
  - destruct (walk sn sp (Some w) (seen ++ rest)) as [es b]. apply Step; [constructor|discriminate].
  - destruct (String.eqb_spec d w) as [->|Nd].
    + exists [Named (DnsName w)], (seen ++ rest). split; [reflexivity|]. split; [constructor; [constructor|constructor]|].
      left. exists []. split; [reflexivity|intros []].
    + destruct (walk sn sp (Some w) (seen ++ rest)) as [es b]. apply Step; [constructor|congruence].
  - destruct (walk sn sp (Some w) (seen ++ rest)) as [es b]. apply Step; [constructor|discriminate].
Qed.
Definition is_dns (i : item) : Prop := exists d, i = Named (DnsName d).
Lemma walk_first sn sp l : exists seen rest, l = seen ++ rest /\ (forall w, Forall2 (says_of sn sp w) seen (fst (walk sn sp None l)))
  /\ (forall d, ~ In (Named (DnsName d)) seen) /\ (rest = [] \/ exists d tail, rest = Named (DnsName d) :: tail).
Proof.
  induction l as [|i l (seen & rest & -> & F & Nd & D)].
  { exists [], []. split; [reflexivity|]. split; [constructor|]. split; [intros d []|now left]. }
  destruct i as [x|[d|k x]]; cbn [walk].
  - destruct (walk sn sp None (seen ++ rest)) as [es b]. exists (Unreadable x :: seen), rest. split; [reflexivity|].
    split; [intros w; constructor; [constructor|apply F]|]. split; [|exact D]. intros d [E|H]; [discriminate E|exact (Nd d H)].
  - exists [], (Named (DnsName d) :: seen ++ rest). split; [reflexivity|]. split; [constructor|]. split; [intros d' []|right; eauto].
  - destruct (walk sn sp None (seen ++ rest)) as [es b]. exists (Named (OtherName k x) :: seen), rest. split; [reflexivity|].
    split; [intros w; constructor; [constructor|apply F]|]. split; [|exact D]. intros d [E|H]; [discriminate E|exact (Nd d H)].
Qed.
Lemma items_all l r : items_in l r -> flat_map items_of (filter (fun e => String.eqb (x_id e) "2.5.29.17") l) = r.
Proof.
  induction 1 as [|x l r N _ IH|x l r E _ IH]; [reflexivity| |]; cbn [filter].
  - destruct (String.eqb_spec (x_id x) "2.5.29.17") as [E|_]; [contradiction|exact IH].
  - rewrite E, String.eqb_refl. cbn [flat_map]. now rewrite IH.
Qed.
Definition dns_item (i : item) : list string := match i with Named (DnsName d) => [d] | _ => [] end.
Lemma dns_items c r : items_in (c_extensions c) r -> c_dns c = flat_map dns_item r.
Proof.
  intros H. apply items_all in H. rewrite <- H. unfold c_dns, san_extensions. clear H.
  generalize (filter (fun e => String.eqb (x_id e) "2.5.29.17") (c_extensions c)). clear c r. intros l. induction l as [|x l IH]; [reflexivity|].
  cbn [map flat_map]. rewrite flat_map_app. rewrite <- IH. clear IH.
  match goal with |- ?a ++ _ = ?b ++ _ => assert (E : a = b); [|now rewrite E] end. unfold items_of. destruct (x_names x) as [n|]; [|reflexivity].
  clear. induction n as [|[d|k t] n IH]; cbn [flat_map map dns_item app]; [reflexivity| |]; now rewrite IH.
Qed.
Lemma dns_item_in d r : In d (flat_map dns_item r) <-> In (Named (DnsName d)) r.
Proof.
  rewrite in_flat_map. split.
  - intros ([x|[e|k t]] & I & H); cbn [dns_item In] in H; try contradiction. destruct H as [->|[]]. exact I.
  - intros I. exists (Named (DnsName d)). split; [exact I|now left].
Qed.
Lemma source_of prefix cid w : names prefix cid w -> strip_scheme prefix cid = w.
Proof. intros H. apply names_iff in H. exact H. Qed.

(** C140: the log shows the check of a certificate's names as it happened: the alternative names are gone through in
    order, each with its own entry, up to the first that is the client's; if there is none, all of them are listed and the
    request is refused. *)
Lemma c140_names_pf
  : forall (show_cert : cert -> string) (show_name : general_name -> string) (show_problem : extension -> string)
      (cert_of_der : string -> option cert) (vkey : Type) (from_spki : string -> string -> option vkey)
      (verifies : vkey -> string -> string -> bool) (root : Type) (roots : option (list root))
      (wm : wallet_metadata) (a : aro) (jwt client_id w h64 p64 s64 alg der : string) (h : obj) (c : cert) (items : list item),
    ro_client_id a = Some client_id -> names "x509_san_dns" client_id w -> compact jwt h64 p64 s64 -> header_text h64 h ->
    text_at "alg" h alg -> alg_supported wm alg -> first_certificate h der -> cert_of_der der = Some c -> items_in (c_extensions c) items ->
    exists seen rest es, items = seen ++ rest
      /\ san_entries show_cert show_name show_problem cert_of_der wm a jwt = (Debug, "Leaf certificate: " +:+ show_cert c) :: es
      /\ Forall2 (says_of show_name show_problem w) seen es
      /\ ((exists before, seen = before ++ [Named (DnsName w)] /\ ~ In (Named (DnsName w)) before)
          \/ rest = [] /\ ~ In (Named (DnsName w)) seen
             /\ x509_san_validate cert_of_der from_spki verifies wm a jwt roots <> Ok tt).
Proof.
  intros sc sn sp cod vkey fs vv root roots wm a jwt cid w h64 p64 s64 alg der h c items Hc Hn Hs Hh Ha Hl Hf Hd Hi.
  assert (L : leaf cod wm jwt = Ok (h64, p64, s64, alg, der, c)) by (apply leaf_iff; exists h; repeat (split; [assumption|]); assumption).
  destruct (walk_for sn sp w items) as (seen & rest & E & F & D).
  exists seen, rest, (fst (walk sn sp (Some w) items)). split; [exact E|]. split; [|split; [exact F|]].
  - unfold san_entries, sans. rewrite Hc, L, walk_all, (items_all _ _ Hi). change X509_SAN_DNS with "x509_san_dns". now rewrite (source_of _ _ _ Hn).
  - destruct D as [D|[-> D]]; [now left|]. right. split; [reflexivity|]. split; [exact D|]. rewrite app_nil_r in E. subst seen.
    unfold x509_san_validate. rewrite Hc. cbn [ok_or rbind]. cbv zeta. rewrite L. cbn [rbind]. change X509_SAN_DNS with "x509_san_dns". rewrite (source_of _ _ _ Hn).
    rewrite (dns_items _ _ Hi). destruct (mem_str w (flat_map dns_item items)) eqn:M; cbn [of_bool rbind]; [|discriminate].
    apply mem_str_iff, dns_item_in in M. contradiction.
Qed.
Definition two_sans : cert :=
  mk_cert [mk_ext "2.5.29.17" false None; mk_ext "1.2" false (Some [DnsName "no"]);
           mk_ext "2.5.29.17" false (Some [OtherName 1%N "mail"; DnsName "a.example"; DnsName "v.example"; DnsName "z.example"])] "K".
Definition two_items : list item :=
  [Unreadable (mk_ext "2.5.29.17" false None); Named (OtherName 1%N "mail"); Named (DnsName "a.example"); Named (DnsName "v.example"); Named (DnsName "z.example")].
Lemma two_in : items_in (c_extensions two_sans) two_items.
Proof.
  apply (items_san (mk_ext "2.5.29.17" false None) _ (tl two_items)); [reflexivity|]. apply items_other; [discriminate|].
  apply (items_san (mk_ext "2.5.29.17" false (Some [OtherName 1%N "mail"; DnsName "a.example"; DnsName "v.example"; DnsName "z.example"])) [] []); [reflexivity|].
  apply items_none.
Qed.
Definition san_logged (client_id : string) : res (list entry) :=
  let? a := aro_of_obj simple_parse (x509_request client_id) in
  Ok (san_entries (fun _ => "cert") (fun _ => "name") (fun _ => "bad") (fun _ => Some two_sans) did_wallet a
        (make_jwt (x5c_header "ES256" [b64std_encode "K|v.example"]) a (toy_signer "K"))).
Example c140_names_ex :
  items_in (c_extensions two_sans) two_items
  /\ san_logged "x509_san_dns:v.example"
     = Ok [(Debug, "Leaf certificate: cert"); (Debug, "unable to parse SubjectAlternativeName from DER: bad"); (Debug, "found non-DNS SAN: name");
           (Debug, "comparing SAN 'a.example' to client_id 'v.example'"); (Debug, "comparing SAN 'v.example' to client_id 'v.example'")].
Proof. split; [exact two_in|vm_compute; reflexivity]. Qed.

(** C140: for the certificate hash, the log shows the hash the client identifier names and the one computed, and the
    request is accepted only if they are the same. *)
Lemma c140_hash_pf
  : forall (show_cert : cert -> string)
      (cert_of_der : string -> option cert) (vkey : Type) (from_spki : string -> string -> option vkey)
      (verifies : vkey -> string -> string -> bool) (root : Type) (roots : option (list root))
      (wm : wallet_metadata) (a : aro) (jwt client_id w h64 p64 s64 alg der : string) (h : obj) (c : cert),
    ro_client_id a = Some client_id -> names "x509_hash" client_id w -> compact jwt h64 p64 s64 -> header_text h64 h ->
    text_at "alg" h alg -> alg_supported wm alg -> first_certificate h der -> cert_of_der der = Some c ->
    exists computed,
      hash_entries show_cert cert_of_der wm a jwt
      = [(Debug, "Leaf certificate: " +:+ show_cert c);
         (Debug, "x509_hash verification: expected='" +:+ w +:+ "', computed='" +:+ computed +:+ "'")]
      /\ computed = b64url_encode (sha256 der)
      /\ (x509_hash_validate cert_of_der from_spki verifies wm a jwt roots = Ok tt -> computed = w).
Proof.
  intros sc cod vkey fs vv root roots wm a jwt cid w h64 p64 s64 alg der h c Hc Hn Hs Hh Ha Hl Hf Hd.
  assert (L : leaf cod wm jwt = Ok (h64, p64, s64, alg, der, c)) by (apply leaf_iff; exists h; repeat (split; [assumption|]); assumption).
  exists (b64url_encode (sha256 der)). split; [|split; [reflexivity|]].
  - unfold hash_entries. rewrite Hc, L. change X509_HASH with "x509_hash". now rewrite (source_of _ _ _ Hn).
  - unfold x509_hash_validate. rewrite Hc. cbn [ok_or rbind]. cbv zeta. rewrite L. cbn [rbind]. change X509_HASH with "x509_hash". rewrite (source_of _ _ _ Hn).
    destruct (String.eqb_spec (b64url_encode (sha256 der)) w) as [E|_]; [intros _; exact E|]. cbn [of_bool rbind]. discriminate.
Qed.
Definition hash_logged (client_id : string) : res (list severity) :=
  let? a := aro_of_obj simple_parse (x509_request client_id) in
  Ok (map fst (hash_entries (fun _ => "cert") toy_cert did_wallet a (make_jwt (x5c_header "ES256" [b64std_encode "K|v.example"]) a (toy_signer "K")))).
Example c140_hash_ex :
  hash_logged toy_hash_id = Ok [Debug; Debug] /\ hash_verdict toy_hash_id "K" (x5c_header "ES256" [b64std_encode "K|v.example"]) = Ok tt.
Proof. split; vm_compute; reflexivity. Qed.

(** C140: a verifier that is set up with a certificate logs what it passed over: the alternative names before the DNS name
    it takes for its identifier; without a DNS name, all of them, and it is not set up. *)
Lemma c140_client_pf
  : forall (show_name : general_name -> string) (show_problem : extension -> string) (key : Type) (to_der : cert -> res string)
      (c : cert) (chain : list cert) (s : signer key) (items : list item),
    items_in (c_extensions c) items ->
    exists seen rest, items = seen ++ rest /\ (forall d, ~ In (Named (DnsName d)) seen)
      /\ (forall w, Forall2 (says_of show_name show_problem w) seen (client_entries show_name show_problem (c :: chain)))
      /\ ((exists d tail cl, rest = Named (DnsName d) :: tail /\ x509_san_client to_der (c :: chain) s = Ok cl
             /\ cl_client_id cl = "x509_san_dns:" +:+ d)
          \/ rest = [] /\ exists e, x509_san_client to_der (c :: chain) s = Err e).
Proof.
  intros sn sp key td c chain s items Hi. destruct (walk_first sn sp items) as (seen & rest & E & F & N & D).
  exists seen, rest. split; [exact E|]. split; [exact N|]. split.
  - intros w. cbn [client_entries]. unfold sans. rewrite walk_all, (items_all _ _ Hi). apply F.
  - assert (S : flat_map dns_item seen = []).
    { destruct (flat_map dns_item seen) as [|d r] eqn:X; [reflexivity|]. exfalso. apply (N d). apply dns_item_in. rewrite X. now left. }
    assert (Q : c_dns c = flat_map dns_item rest) by (rewrite (dns_items _ _ Hi), E, flat_map_app, S; reflexivity).
    unfold x509_san_client. rewrite Q. destruct D as [->|(d & tail & ->)].
    + right. split; [reflexivity|]. eexists. reflexivity.
    + left. cbn [flat_map dns_item app nth_error ok_or rbind]. eexists. eexists. eexists. split; [reflexivity|]. split; reflexivity.
Qed.
Example c140_client_ex :
  items_in (c_extensions two_sans) two_items
  /\ client_entries (fun _ => "name") (fun _ => "bad") [two_sans]
     = [(Debug, "unable to parse SubjectAlternativeName from DER: bad"); (Debug, "found non-DNS SAN: name")].
Proof. split; [exact two_in|vm_compute; reflexivity]. Qed.
