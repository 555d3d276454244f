(** C98: which JSON is which parameter. *)
From Coq Require Import Sorting.Permutation Lia ZArith.
From Verif Require Import Base BaseFacts Json JsonFacts Serde MapFacts Url Object Formats Params Dcql Response Metadata
  Spec SpecDcql SpecReading ParamFacts PfQuery.
From Verif Require SpecResponse PfResponse PfParams.

Lemma held {T} (P : tparam T) key R (W : T -> json -> Prop) (ok : T -> Prop) :
  tp_key P = key -> reads (tp_of P) R -> (forall t, ok t -> exists v, tp_to P t = Ok v /\ W t v) -> held_as P key R W ok.
Proof.
  intros <- H HW. unfold held_as, uo_get. split; [|split].
  - intros o t. destruct (obj_get (tp_key P) o) as [v|].
    + split.
      * intros E. exists v. split; [reflexivity|]. apply H. congruence.
      * intros (v' & E & V). injection E as <-. f_equal. now apply H.
    + split; [discriminate|intros (? & X & _); discriminate].
  - intros o. destruct (obj_get (tp_key P) o); split; congruence.
  - intros o t Ht. destruct (HW t Ht) as (v & E & V). exists v. split; [exact V|]. intros k.
    unfold uo_insert. rewrite E. cbn [fst]. apply obj_get_insert.
Qed.
Lemma held_map {A} (P : tparam (list A)) key (R : json -> list A -> Prop) (ok : list A -> Prop) :
  tp_key P = key ->
  (forall v t, jsorted v = true -> tp_of P v = Ok t -> R v t) ->
  (forall v t, jsorted v = true -> R v t -> exists t', tp_of P v = Ok t' /\ Permutation t t') ->
  (forall t, ok t -> exists v, tp_to P t = Ok v /\ R v t) -> held_as_map P key R ok.
Proof.
  intros <- S C HW. unfold held_as_map, uo_get. split; [|split].
  - intros o v t E Hs. rewrite E. split.
    + intros X. apply S; [exact Hs|congruence].
    + intros X. destruct (C v t Hs X) as (t' & X1 & X2). exists t'. split; [now rewrite X1|exact X2].
  - intros o. destruct (obj_get (tp_key P) o); split; congruence.
  - intros o t Ht. destruct (HW t Ht) as (v & E & V). exists v. split; [exact V|]. intros k.
    unfold uo_insert. rewrite E. cbn [fst]. apply obj_get_insert.
Qed.

Ltac parts := repeat match goal with |- _ /\ _ => split end.
Lemma texts_eq j l : is_texts j l <-> j = JArr (map JStr l).
Proof.
  unfold is_texts, is_list. split.
  - intros (js & -> & F). f_equal. induction F as [|x y js l E _ IH]; [reflexivity|]. cbn [map]. unfold is_text in E. congruence.
  - intros ->. exists (map JStr l). split; [reflexivity|]. induction l; cbn [map]; constructor; [reflexivity|assumption].
Qed.
Lemma held_text k : held_as (p_string k) k is_text (as_read is_text) always.
Proof. apply held; [reflexivity|exact reads_str|]. intros t _. exists (JStr t). split; reflexivity. Qed.
Lemma held_texts k : held_as (p_strings k) k is_texts (as_read is_texts) always.
Proof. apply held; [reflexivity|exact (reads_list _ _ reads_str)|]. intros t _. exists (jstrs t). split; [reflexivity|]. now apply texts_eq. Qed.

(** C98: text parameters are exactly JSON strings, and lists of text exactly arrays of strings, each under its own name. *)
Lemma c98_text_pf
  : held_as p_client_id "client_id" is_text (as_read is_text) always
    /\ held_as p_nonce "nonce" is_text (as_read is_text) always
    /\ held_as p_audience "aud" is_text (as_read is_text) always
    /\ held_as p_state "state" is_text (as_read is_text) always
    /\ held_as p_issuer "issuer" is_text (as_read is_text) always
    /\ held_as p_id_token "id_token" is_text (as_read is_text) always
    /\ held_as p_expected_origins "expected_origins" is_texts (as_read is_texts) always
    /\ held_as p_transaction_data "transaction_data" is_texts (as_read is_texts) always
    /\ held_as p_client_id_prefixes "client_id_prefixes_supported" is_texts (as_read is_texts) always
    /\ held_as p_signing_algs "request_object_signing_alg_values_supported" is_texts (as_read is_texts) always
    /\ held_as p_encryption_algs "authorization_encryption_alg_values_supported" is_texts (as_read is_texts) always
    /\ held_as p_encryption_encs "authorization_encryption_enc_values_supported" is_texts (as_read is_texts) always
    /\ held_as p_response_encs "encrypted_response_enc_values_supported" is_texts (as_read is_texts) always.
Proof. parts; first [apply held_text|apply held_texts]. Qed.
Example c98_text_ex
  : uo_get p_nonce [("aud", JStr "a"); ("nonce", JStr "n")] = Some (Ok "n")
    /\ uo_get p_state [("aud", JStr "a")] = None
    /\ (exists e, uo_get p_expected_origins [("expected_origins", JArr [JStr "a"; JNull])] = Some (Err e)).
Proof. split; [reflexivity|split; [reflexivity|]]. eexists. reflexivity. Qed.

Lemma reads_mode : reads (fun j => rmap mode_of_string (de_str j)) is_mode.
Proof.
  intros j m. unfold is_mode, named. split.
  - intros H. destruct j as [| | | |s| |]; try discriminate H. cbn in H. injection H as <-. exists s. split; [reflexivity|]. unfold mode_of_string.
    repeat (match goal with |- context [String.eqb s ?x] => destruct (String.eqb_spec s x) as [->|] end; [left; cbn; tauto|]).
    right. split; [reflexivity|]. cbn. intuition congruence.
  - intros (s & -> & [H|[-> N]]); cbn [de_str as_str ok_or rmap]; f_equal.
    + cbn in H. intuition; match goal with E : (_, _) = (_, _) |- _ => injection E as <- <- end; reflexivity.
    + unfold mode_of_string. cbn in N.
      repeat (match goal with |- context [String.eqb s ?x] => destruct (String.eqb_spec s x) as [->|] end; [tauto|]). reflexivity.
Qed.
Lemma reads_type : reads (fun j => rmap rtype_of_string (de_str j)) is_type.
Proof.
  intros j m. unfold is_type, named. split.
  - intros H. destruct j as [| | | |s| |]; try discriminate H. cbn in H. injection H as <-. exists s. split; [reflexivity|]. unfold rtype_of_string.
    repeat (match goal with |- context [String.eqb s ?x] => destruct (String.eqb_spec s x) as [->|] end; [left; cbn; tauto|]).
    right. split; [reflexivity|]. cbn. intuition congruence.
  - intros (s & -> & [H|[-> N]]); cbn [de_str as_str ok_or rmap]; f_equal.
    + cbn in H. intuition; match goal with E : (_, _) = (_, _) |- _ => injection E as <- <- end; reflexivity.
    + unfold rtype_of_string. cbn in N.
      repeat (match goal with |- context [String.eqb s ?x] => destruct (String.eqb_spec s x) as [->|] end; [tauto|]). reflexivity.
Qed.
Lemma type_written t : canonical_type t -> is_type (JStr (rtype_to_string t)) t.
Proof. intros H. apply reads_type. cbn. now rewrite rtype_rt. Qed.

(** C98: the response mode, the response type and the request method are the listed names; any other text is kept as an
    unsupported mode or type, and is no request method. *)
Lemma c98_enum_pf
  : held_as p_response_mode "response_mode" is_mode (as_read is_mode) canonical_mode
    /\ held_as p_response_type "response_type" is_type (as_read is_type) canonical_type
    /\ held_as p_response_types_supported "response_types_supported" (is_list is_type) (as_read (is_list is_type)) (Forall canonical_type)
    /\ held_as p_request_uri_method "request_uri_method" is_method (as_read is_method) always.
Proof.
  split; [|split; [|split]].
  - apply held; [reflexivity|exact reads_mode|]. intros t Ht. eexists. split; [reflexivity|]. apply reads_mode. cbn. now rewrite mode_rt.
  - apply held; [reflexivity|exact reads_type|]. intros t Ht. eexists. split; [reflexivity|]. now apply type_written.
  - apply held; [reflexivity|exact (reads_list _ _ reads_type)|]. intros t Ht. eexists. split; [reflexivity|].
    exists (map JStr (map rtype_to_string t)). split; [reflexivity|].
    induction Ht as [|x l H F IH]; cbn [map]; constructor; [now apply type_written|assumption].
  - apply held; [reflexivity| |].
    + intros j m. unfold is_method. cbn [tp_of p_request_uri_method]. split.
      * intros H. destruct j as [| | | |s| |]; try discriminate H. cbn in H.
        destruct (String.eqb_spec s "get") as [->|]; [injection H as <-; auto|].
        destruct (String.eqb_spec s "post") as [->|]; [injection H as <-; auto|discriminate].
      * intros [[-> ->]|[-> ->]]; reflexivity.
    + intros t _. eexists. split; [reflexivity|]. unfold as_read, is_method. destruct t; auto.
Qed.
Example c98_enum_ex
  : uo_get p_response_mode [("response_mode", JStr "query")] = Some (Ok (UnsupportedMode "query"))
    /\ uo_get p_response_type [("response_type", JStr "vp_token id_token")] = Some (Ok RtVpTokenIdToken)
    /\ (exists e, uo_get p_request_uri_method [("request_uri_method", JStr "POST")] = Some (Err e)).
Proof. split; [reflexivity|split; [reflexivity|]]. eexists. reflexivity. Qed.

(** C98: URL parameters are the texts the URL parser accepts, and are written as the URL's text. *)
Lemma c98_url_pf
  : forall parse : string -> option url,
    held_as (p_redirect_uri parse) "redirect_uri" (is_url parse) (fun u v => v = JStr (url_str u)) always
    /\ held_as (p_response_uri parse) "response_uri" (is_url parse) (fun u v => v = JStr (url_str u)) always
    /\ held_as (p_authorization_endpoint parse) "authorization_endpoint" (is_url parse) (fun u v => v = JStr (url_str u)) always.
Proof.
  intros parse. assert (R : reads (de_url parse) (is_url parse)).
  { intros j u. unfold de_url, is_url. destruct j as [| | | |s| |]; try (split; [discriminate|intros (? & X & _); discriminate]).
    cbn [de_str as_str ok_or rbind]. destruct (parse s) as [u'|] eqn:E; cbn [ok_or]; split.
    - intros X. injection X as <-. eauto.
    - intros (s' & X & Y). injection X as <-. congruence.
    - discriminate.
    - intros (s' & X & Y). injection X as <-. congruence. }
  parts; (apply held; [reflexivity|exact R|]); intros t _; eexists; split; reflexivity.
Qed.
Example c98_url_ex
  : exists u, uo_get (p_response_uri simple_parse) [("response_uri", JStr "https://a.example/p")] = Some (Ok u) /\ url_authority u = "a.example".
Proof. eexists. split; vm_compute; reflexivity. Qed.

Lemma reads_object : reads de_obj is_object.
Proof. intros j o. unfold is_object, de_obj. destruct j; cbn; split; intros H; try discriminate; congruence. Qed.
Lemma reads_any : reads de_json is_any.
Proof. intros j o. unfold is_any, de_json. split; congruence. Qed.
Lemma reads_keys : reads (tp_of p_jwks) is_key_set.
Proof.
  fields_of ["keys"]; unfold is_key_set; cbn [tp_of p_jwks]; rewrite F; cbn [rbind].
  - rewrite (V 0 _ eq_refl). fold (fval m "keys"). rewrite (read_req _ _ _ _ _ (reads_list _ _ reads_object)). split; [eauto|].
    intros (m' & M' & R). now rewrite (members_unique _ _ _ _ M M').
  - cbn [length pred] in V. rewrite V. split; [discriminate|]. intros (m' & M' & _). destruct (M _ M').
  - split; [discriminate|]. intros (m' & M' & _). destruct (M _ M').
Qed.
Lemma list_map {A B} (R : B -> A -> Prop) (f : A -> B) l : (forall a, R (f a) a) -> Forall2 R (map f l) l.
Proof. intros H. induction l; cbn [map]; constructor; auto. Qed.

(** C98: client metadata are exactly an object, verifier information any array, a key set an object whose member "keys"
    is an array of objects, and a query is read as C87 says. *)
Lemma c98_structured_pf
  : held_as p_client_metadata "client_metadata" is_object (as_read is_object) always
    /\ held_as p_verifier_info "verifier_info" (is_list is_any) (fun l v => v = JArr l) always
    /\ held_as p_jwks "jwks" is_key_set (fun ks v => v = JObj [("keys", JArr (map JObj ks))]) always
    /\ held_as p_dcql "dcql_query" is_query (as_read is_query) dcql_ok.
Proof.
  parts.
  - apply held; [reflexivity|exact reads_object|]. intros t _. eexists. split; reflexivity.
  - apply held; [reflexivity|exact (reads_list _ _ reads_any)|]. intros t _. eexists. split; reflexivity.
  - apply held; [reflexivity|exact reads_keys|]. intros t _. eexists. split; reflexivity.
  - apply held; [reflexivity|exact c87_query_pf|]. intros t H. eexists. split; [reflexivity|]. apply c87_query_pf.
    destruct (proj2 (proj2 (proj2 PfParams.c03_structured_params_pf)) t H) as (v & E & E'). cbn in E. injection E as <-. exact E'.
Qed.
Example c98_structured_ex
  : uo_get p_jwks [("jwks", JArr [JArr [JObj [("kty", JStr "EC")]]])] = Some (Ok [[("kty", JStr "EC")]])
    /\ uo_get p_verifier_info [("verifier_info", JArr [JNull; JStr "x"])] = Some (Ok [JNull; JStr "x"])
    /\ (exists e, uo_get p_client_metadata [("client_metadata", JArr [])] = Some (Err e)).
Proof. split; [reflexivity|split; [reflexivity|]]. eexists. reflexivity. Qed.

(* ------------------------------------------------------------ maps *)
Lemma reads_payload : reads payload_of_json is_payload.
Proof.
  intros j p. split.
  - intros H. pose proof (payload_of_canonical _ _ H) as C. pose proof (payload_to_of _ _ H) as E. subst j.
    destruct p as [l|l|j']; cbn [payload_to_json is_payload]; try reflexivity. split; [reflexivity|]. cbn in C.
    split; intros (l & X); specialize (C l); tauto.
  - intros H. destruct p as [l|l|j']; cbn [is_payload] in H.
    + subst j. exact (payload_rt (AlgValues l) I).
    + subst j. exact (payload_rt (ProofTypeValues l) I).
    + destruct H as (-> & N1 & N2). apply (payload_rt (OtherPayload j)). intros l. split; intros X; [apply N1|apply N2]; exists l; exact X.
Qed.
Lemma format_iff k d : is_format (JStr k) d <-> from_name k = d.
Proof. rewrite <- (reads_format (JStr k) d). cbn. split; congruence. Qed.
Lemma sorted_nodup m : ksorted m -> NoDup (map fst m).
Proof.
  induction m as [|[k v] m IH]; intros H; cbn; [constructor|]. constructor; [|apply IH; now apply ksorted_tail in H].
  apply ksorted_head_fresh in H. now apply obj_get_none in H.
Qed.
Lemma get_iff m k v : ksorted m -> obj_get k m = Some v <-> In (k, v) m.
Proof. intros H. split; [apply obj_get_in|now apply ksorted_get_in]. Qed.
Lemma forall2_in {A B} (R : A -> B -> Prop) l r : Forall2 R l r -> (forall a b b', R a b -> R a b' -> b = b') ->
  forall b, In b r <-> exists a, In a l /\ R a b.
Proof.
  intros F U. induction F as [|a b l r H F IH]; intros c; cbn.
  - split; [tauto|intros (? & [] & _)].
  - rewrite IH. split.
    + intros [<-|(a' & Hi & Hr)]; eauto.
    + intros (a' & [<-|Hi] & Hr); [left; eauto|right; eauto].
Qed.
Lemma formats_sound v f : jsorted v = true -> format_map_of_json v = Ok f -> is_formats v f.
Proof.
  intros S. destruct v as [| | | | | |m]; try discriminate. apply jsorted_obj in S. cbn [format_map_of_json]. intros H.
  apply rbind_ok in H as (l & H & E). injection E as <-. apply mapM_ok in H.
  assert (K : map fst l = map from_name (map fst m)).
  { clear - H. induction H as [|[k v] [d p] m l H _ IH]; [reflexivity|]. cbn [map fst snd] in *.
    apply rbind_ok in H as (p' & _ & E). injection E as <- _. now rewrite IH. }
  assert (N : NoDup (map fst l)).
  { rewrite K. apply FinFun.Injective_map_NoDup; [|now apply sorted_nodup]. intros a b E. apply (f_equal name) in E. now rewrite !name_from in E. }
  rewrite fm_fold_nodup by exact N. cbn [app]. exists m. split; [reflexivity|]. split; [exact N|]. intros d p.
  rewrite (forall2_in _ _ _ H) by (intros; congruence). split.
  - intros ([k v] & Hi & E). cbn [fst snd] in E. apply rbind_ok in E as (p' & E & X). injection X as <- <-. exists k, v.
    split; [now apply get_iff|]. split; [now apply format_iff|now apply reads_payload].
  - intros (k & v & G & F & R). exists (k, v). split; [now apply get_iff in G|]. cbn [fst snd]. apply reads_payload in R. rewrite R.
    cbn [rbind]. apply format_iff in F. now rewrite F.
Qed.
Lemma formats_complete v f : jsorted v = true -> is_formats v f -> exists f', format_map_of_json v = Ok f' /\ Permutation f f'.
Proof.
  intros S H. pose proof H as (m & -> & N & I). assert (T : exists f', format_map_of_json (JObj m) = Ok f').
  { cbn [format_map_of_json]. assert (T : exists l, mapM (fun kv : string * json => let? p := payload_of_json (snd kv) in Ok (from_name (fst kv), p)) m = Ok l).
    { clear. induction m as [|[k v] m [l IH]]; [exists []; reflexivity|]. destruct (payload_of_total v) as [p E]. cbn [mapM fst snd]. rewrite E. cbn [rbind].
      rewrite IH. eexists. reflexivity. }
    destruct T as [l ->]. eexists. reflexivity. }
  destruct T as [f' E]. exists f'. split; [exact E|]. destruct (formats_sound _ _ S E) as (m' & X & N' & I'). injection X as <-.
  apply NoDup_Permutation; [now apply NoDup_map_inv in N|now apply NoDup_map_inv in N'|]. intros [d p]. now rewrite I, I'.
Qed.
Lemma formats_written f : format_map_ok f -> is_formats (format_map_to_json f) f.
Proof.
  intros H. pose proof (names_nodup _ H) as N. destruct H as [D F]. unfold format_map_to_json.
  set (l := map _ f). eexists. split; [reflexivity|]. split; [exact D|]. intros d p.
  assert (G : forall k v, obj_get k (obj_of_list l) = Some v <-> exists d p, In (d, p) f /\ name d = k /\ payload_to_json p = v).
  { intros k v. rewrite (get_iff _ _ _ (ksorted_of_list l)). rewrite <- (Permutation_in' (x := (k, v)) eq_refl (Permutation_sym (obj_of_list_permutation l ltac:(unfold l; rewrite map_map; exact N)))).
    unfold l. rewrite in_map_iff. split.
    - intros ([d' p'] & E & Hi). injection E as <- <-. eauto.
    - intros (d' & p' & Hi & <- & <-). exists (d', p'). auto. }
  rewrite Forall_forall in F. split.
  - intros Hi. destruct (F _ Hi) as [Cd Cp]. cbn [fst snd] in *. exists (name d), (payload_to_json p). split; [apply G; eauto|].
    split; [apply format_iff; now apply name_rt|apply reads_payload; now apply payload_rt].
  - intros (k & v & X & Y & Z). apply G in X as (d' & p' & Hi & <- & <-). destruct (F _ Hi) as [Cd Cp]. cbn [fst snd] in *.
    apply format_iff in Y. rewrite name_rt in Y by exact Cd. subst d'. apply reads_payload in Z. rewrite payload_rt in Z by exact Cp. congruence.
Qed.

Import SpecResponse PfResponse.
Lemma items_plain v l : jsorted v = true -> items_json v l <-> is_list is_presentation v l.
Proof.
  intros S. unfold items_json, is_list. split; intros (js & -> & F); exists js; (split; [reflexivity|]); cbn [jsorted] in S.
  - induction F as [|j i js l H F IH]; [constructor|]. cbn [forallb] in S. apply andb_prop in S as [Sj S]. constructor; [|auto].
    destruct i as [s|m]; cbn [item_json is_presentation] in *; [exact H|]. destruct H as (m0 & -> & E). now rewrite normalize_sorted in E.
  - induction F as [|j i js l H F IH]; [constructor|]. cbn [forallb] in S. apply andb_prop in S as [Sj S]. constructor; [|auto].
    destruct i as [s|m]; cbn [item_json is_presentation] in *; [exact H|]. subst j. exists m. split; [reflexivity|now apply normalize_sorted].
Qed.
Lemma member_iff m id v : ksorted m -> obj_get id m = Some v <-> exists a b, m = a ++ (id, v) :: b /\ ~ In id (map fst b).
Proof.
  intros K. rewrite (get_iff _ _ _ K). split.
  - intros Hi. apply in_split in Hi as (a & b & ->). exists a, b. split; [reflexivity|]. apply sorted_nodup in K. rewrite map_app in K. cbn in K.
    apply NoDup_remove_2 in K. rewrite in_app_iff in K. tauto.
  - intros (a & b & -> & _). apply in_or_app. right. now left.
Qed.
Lemma token_entries m l t : ksorted m -> jsorted (JObj m) = true -> Forall2 entry_of m l ->
  t = fold_left (fun t e => vp_insert (fst e) (snd e) t) l [] -> is_token (JObj m) t.
Proof.
  intros K S F E. apply fold_insert in E as [N I]. exists m. split; [reflexivity|]. split; [exact N|]. split.
  - intros id v G. pose proof (jsorted_get _ _ _ S G) as Sv. apply obj_get_in in G. clear - F G Sv. induction F as [|[k w] [k2 l2] m l [E1 E2] F IH]; [destruct G|].
    destruct G as [X|G]; [|auto]. injection X as -> ->. cbn [snd] in E2. exists l2. now apply items_plain.
  - intros id x. rewrite I, (last_entry_transfer _ _ _ _ F). split.
    + intros (a & v & b & E & X & Y). exists v. assert (G : obj_get id m = Some v) by (apply member_iff; [exact K|eauto]).
      split; [exact G|]. apply items_plain; [exact (jsorted_get _ _ _ S G)|exact Y].
    + intros (v & G & Y). apply items_plain in Y; [|exact (jsorted_get _ _ _ S G)]. apply member_iff in G as (a & b & E & X); [|exact K]. exists a, v, b. auto.
Qed.
Lemma token_sound v t : jsorted v = true -> vp_of_json v = Ok t -> is_token v t.
Proof.
  intros S. destruct v as [| | | | | |m]; try discriminate. cbn [vp_of_json]. unfold vp_of_entries. intros H.
  apply rbind_ok in H as (l & H & E). apply entries_iff in H. injection E as E. eapply token_entries; eauto. now apply jsorted_obj.
Qed.
Lemma token_complete v t : jsorted v = true -> is_token v t -> exists t', vp_of_json v = Ok t' /\ Permutation t t'.
Proof.
  intros S (m & -> & N & R & I). pose proof (jsorted_obj _ S) as K. assert (exists l, Forall2 entry_of m l) as [l F].
  { assert (A : forall k v, In (k, v) m -> exists l, items_json v l).
    { intros k v Hi. apply get_iff in Hi; [|exact K]. destruct (R _ _ Hi) as [l L]. exists l. apply items_plain; [exact (jsorted_get _ _ _ S Hi)|exact L]. }
    clear - A. induction m as [|[k v] m IH]; [exists []; constructor|].
    destruct (A k v (or_introl eq_refl)) as [x Hx]. destruct IH as [l F]; [intros k' v' Hi; apply (A k'); now right|].
    exists ((k, x) :: l). constructor; [split; auto|exact F]. }
  pose proof F as F'. apply entries_iff in F. eexists. split; [cbn [vp_of_json]; unfold vp_of_entries; rewrite F; reflexivity|].
  destruct (token_entries m l _ K S F' eq_refl) as (m' & X & N' & _ & I'). injection X as <-.
  apply NoDup_Permutation; [now apply NoDup_map_inv in N|now apply NoDup_map_inv in N'|]. intros [id x]. now rewrite I, I'.
Qed.
Lemma token_written t : vp_ok t -> is_token (vp_to_json t) t.
Proof.
  intros N. unfold vp_to_json. eexists. split; [reflexivity|]. split; [exact N|].
  assert (G : forall k v, obj_get k (obj_of_list (vp_members t)) = Some v <-> exists l, In (k, l) t /\ v = JArr (map item_to_json l)).
  { intros k v. rewrite (get_iff _ _ _ (ksorted_of_list _)).
    assert (D : NoDup (map fst (vp_members t))) by (unfold vp_members; rewrite map_map; exact N).
    rewrite <- (Permutation_in' (x := (k, v)) eq_refl (Permutation_sym (obj_of_list_permutation _ D))).
    unfold vp_members. rewrite in_map_iff. split.
    - intros ([k' l'] & E & Hi). injection E as <- <-. eauto.
    - intros (l & Hi & ->). exists (k, l). auto. }
  assert (P : forall l, is_list is_presentation (JArr (map item_to_json l)) l).
  { intros l. eexists. split; [reflexivity|]. apply list_map. intros [s|m]; reflexivity. }
  split.
  - intros id v E. apply G in E as (l & _ & ->). eauto.
  - intros id l. split.
    + intros Hi. eexists. split; [apply G; eauto|apply P].
    + intros (v & E & L). apply G in E as (l' & Hi & ->). replace l with l'; [exact Hi|]. destruct L as (js & X & F). injection X as <-.
      clear - F. revert l F. induction l' as [|i l' IH]; intros l F; inversion F as [|? y ? ? E F']; subst; [reflexivity|].
      f_equal; [|auto]. destruct i, y; cbn in E; congruence.
Qed.

(** C98: formats are an object with one member per format, named after it: the listed algorithms or proof types, or
    anything else, kept as it is.  A VP token is an object with one member per credential query id, each an array of
    texts and objects; if any member is something else it is no VP token. *)
Lemma c98_maps_pf
  : held_as_map p_vp_formats_supported "vp_formats_supported" is_formats format_map_ok
    /\ held_as_map p_vp_formats "vp_formats_supported" is_formats format_map_ok
    /\ held_as_map p_vp_token "vp_token" is_token vp_ok.
Proof.
  parts.
  - apply held_map; [reflexivity|exact formats_sound|exact formats_complete|]. intros t H. eexists. split; [reflexivity|now apply formats_written].
  - apply held_map; [reflexivity|exact formats_sound|exact formats_complete|]. intros t H. eexists. split; [reflexivity|now apply formats_written].
  - apply held_map; [reflexivity|exact token_sound|exact token_complete|]. intros t H. eexists. split; [reflexivity|now apply token_written].
Qed.
Example c98_maps_ex
  : uo_get p_vp_formats [("vp_formats_supported", JObj [("ldp_vc", JObj [("proof_type_values", JArr [JStr "a"])]); ("x", JNull)])]
      = Some (Ok [(LdpVc, ProofTypeValues ["a"]); (OtherFormat "x", OtherPayload JNull)])
    /\ uo_get p_vp_token [("vp_token", JObj [("a", JArr [JStr "p"; JObj []])])] = Some (Ok [("a", [VpString "p"; VpObject []])])
    /\ (exists e, uo_get p_vp_token [("vp_token", JObj [("a", JArr []); ("b", JStr "p")])] = Some (Err e)).
Proof. split; [reflexivity|split; [reflexivity|]]. eexists. reflexivity. Qed.

Lemma read_texts name v l : NoDup [name] ->
  (let? fs := de_fields [name] v in f_req (de_list de_str) (nth_fld 0 fs)) = Ok l <-> exists m, members_in [name] v m /\ required is_texts name m l.
Proof.
  intros N. destruct (shape_of [name] v N) as [m fs M F V|fs M F V|e M F]; rewrite F; cbn [rbind].
  - rewrite (V 0 _ eq_refl). fold (fval m name). rewrite (read_req _ _ _ _ _ (reads_list _ _ reads_str)). split; [intros R; exists m; auto|].
    intros (m' & M' & R). now rewrite (members_unique _ _ _ _ M M').
  - cbn [length pred] in V. rewrite V. split; [discriminate|]. intros (m' & M' & _). destruct (M _ M').
  - split; [discriminate|]. intros (m' & M' & _). destruct (M _ M').
Qed.
Lemma tagged_iff k v c : cf_tagged k v = Some c <-> format_member k v c.
Proof.
  assert (One : forall n : string, NoDup [n]) by (intros n; constructor; [intros []|constructor]).
  unfold cf_tagged, FORMAT_JWT_VC_JSON, FORMAT_LDP_VC, FORMAT_MSO_MDOC, FORMAT_DC_SD_JWT.
  destruct (String.eqb_spec k "jwt_vc_json") as [->|N1].
  { pose proof (fun l => read_texts "alg_values_supported" v l (One _)) as R.
    destruct (let? fs := de_fields ["alg_values_supported"] v in f_req (de_list de_str) (nth_fld 0 fs)) as [l|e]; cbn [option_map]; split.
    - intros E. injection E as <-. split; [reflexivity|]. now apply R.
    - destruct c; cbn; try (intros [X _]; discriminate X); try tauto. intros [_ X]. apply R in X. congruence.
    - discriminate.
    - destruct c; cbn; try (intros [X _]; discriminate X); try tauto. intros [_ X]. apply R in X. discriminate. }
  destruct (String.eqb_spec k "ldp_vc") as [->|N2].
  { pose proof (fun l => read_texts "proof_type" v l (One _)) as R.
    destruct (let? fs := de_fields ["proof_type"] v in f_req (de_list de_str) (nth_fld 0 fs)) as [l|e]; cbn [option_map]; split.
    - intros E. injection E as <-. split; [reflexivity|]. now apply R.
    - destruct c; cbn; try (intros [X _]; discriminate X); try tauto. intros [_ X]. apply R in X. congruence.
    - discriminate.
    - destruct c; cbn; try (intros [X _]; discriminate X); try tauto. intros [_ X]. apply R in X. discriminate. }
  destruct (String.eqb_spec k "mso_mdoc") as [->|N3].
  { split; [intros E; injection E as <-; cbn; auto|]. destruct c; cbn; try (intros [X _]; discriminate X); try tauto. intros [_ ->]. reflexivity. }
  destruct (String.eqb_spec k "dc+sd-jwt") as [->|N4].
  { split; [intros E; injection E as <-; cbn; auto|]. destruct c; cbn; try (intros [X _]; discriminate X); try tauto. intros [_ ->]. reflexivity. }
  split; [discriminate|]. destruct c; cbn; try (intros [X _]; contradiction); tauto.
Qed.

(** C98: every JSON value is a claim format: the one its only member names, if that member's value fits; otherwise a
    format of its own, kept as it is. *)
Lemma c98_claim_format_pf
  : forall (j : json) (c : claim_format), cf_of_json j = Ok c <-> is_claim_format j c.
Proof.
  intros j c. unfold is_claim_format.
  destruct j as [| | | | | |m]; try (split; [intros H; injection H as <-; right; split; [reflexivity|discriminate]|
    intros [(k & v & X & _)|[-> _]]; [discriminate|reflexivity]]).
  destruct m as [|[k v] [|x r]].
  - split; [intros H; injection H as <-; right; split; [reflexivity|discriminate]|intros [(k & v & X & _)|[-> _]]; [discriminate|reflexivity]].
  - cbn [cf_of_json]. destruct (cf_tagged k v) as [c'|] eqn:E; split.
    + intros H. injection H as <-. left. exists k, v. split; [reflexivity|now apply tagged_iff].
    + intros [(k' & v' & X & F)|[_ N]].
      * injection X as <- <-. apply tagged_iff in F. congruence.
      * apply tagged_iff in E. destruct (N k v c' eq_refl E).
    + intros H. injection H as <-. right. split; [reflexivity|]. intros k' v' c' X F. injection X as <- <-. apply tagged_iff in F. congruence.
    + intros [(k' & v' & X & F)|[-> _]]; [|reflexivity]. injection X as <- <-. apply tagged_iff in F. congruence.
  - split; [intros H; injection H as <-; right; split; [reflexivity|discriminate]|intros [(k' & v' & X & _)|[-> _]]; [discriminate|reflexivity]].
Qed.
Example c98_claim_format_ex
  : cf_of_json (JObj [("ldp_vc", JArr [JArr [JStr "a"]])]) = Ok (CfLdpVc ["a"])
    /\ cf_of_json (JObj [("ldp_vc", JNull)]) = Ok (CfOther (JObj [("ldp_vc", JNull)])).
Proof. split; reflexivity. Qed.
