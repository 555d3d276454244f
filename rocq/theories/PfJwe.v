From Coq Require Import Lia Sorting.Permutation.
From Verif Require Import Base BaseFacts Utf8 Json JsonFacts JsonText JsonTextFacts Url Serde Object Formats Params Metadata
  Effects Request Verify Response Jwe MapFacts Spec ParamFacts SpecRequest PfRequest PfVerify SpecResponse PfResponse SpecJwe.

(* ------------------------------------------------------------ well-formed parts *)
Lemma parsed_get o k m : parsed_key o -> obj_get k o = Some (JObj m) -> parsed_key m.
Proof.
  intros [W D] G. apply obj_get_in in G. unfold parsed_key, jwf in *. apply andb_true_iff in W as [W1 W2].
  cbn [jtext_ok jsorted jdepth] in W1, W2, D. apply andb_true_iff in W2 as [_ W2].
  rewrite forallb_forall in W1, W2. specialize (W1 _ G). specialize (W2 _ G). cbn [fst snd] in *.
  apply andb_true_iff in W1 as [_ W1]. split; [now apply andb_true_iff|].
  assert (jdepth (JObj m) <= fold_right Nat.max 0 (map (fun kv : string * json => jdepth (snd kv)) o)).
  { apply max_fold_le. apply in_map_iff. exists (k, JObj m). auto. }
  lia.
Qed.
Definition parsed (j : json) : Prop := jwf j = true /\ jdepth j <= 127.
Lemma parsed_get' o k j : parsed_key o -> obj_get k o = Some j -> parsed j.
Proof.
  intros [W D] G. apply obj_get_in in G. unfold parsed, parsed_key, jwf in *. apply andb_true_iff in W as [W1 W2].
  cbn [jtext_ok jsorted jdepth] in W1, W2, D. apply andb_true_iff in W2 as [_ W2].
  rewrite forallb_forall in W1, W2. specialize (W1 _ G). specialize (W2 _ G). cbn [fst snd] in *.
  apply andb_true_iff in W1 as [_ W1]. split; [now apply andb_true_iff|].
  assert (jdepth j <= fold_right Nat.max 0 (map (fun kv : string * json => jdepth (snd kv)) o)).
  { apply max_fold_le. apply in_map_iff. exists (k, j). auto. }
  lia.
Qed.
Lemma parsed_arr l j : parsed (JArr l) -> In j l -> parsed j.
Proof.
  intros [W D] H. unfold parsed, jwf in *. apply andb_true_iff in W as [W1 W2]. cbn [jtext_ok jsorted jdepth] in *.
  rewrite forallb_forall in W1, W2. split; [apply andb_true_iff; auto|].
  assert (jdepth j <= fold_right Nat.max 0 (map jdepth l)) by (apply max_fold_le; apply in_map_iff; eauto). lia.
Qed.
Lemma parsed_keys o cm keys : parsed_key o -> client_metadata o cm -> client_keys cm keys -> Forall parsed_key keys.
Proof.
  intros P C (v & G & K). unfold client_metadata in C.
  assert (Pc : parsed_key cm).
  { destruct (obj_get "client_metadata" o) as [w|] eqn:E; [|subst cm; split; [reflexivity|cbn; lia]].
    subst w. now apply (parsed_get o "client_metadata"). }
  assert (Pl : parsed (JArr (map JObj keys))).
  { destruct K as [(o' & -> & G')| ->].
    - pose proof (parsed_get _ _ _ Pc G). now apply (parsed_get' o' "keys").
    - pose proof (parsed_get' _ _ _ Pc G) as Q. apply (parsed_arr _ _ Q). now left. }
  apply Forall_forall. intros k Hk. apply (parsed_arr _ _ Pl). apply in_map_iff. eauto.
Qed.

Lemma candidate_iff k : enc_candidate k = true <-> encryption_key k.
Proof.
  unfold enc_candidate, encryption_key. rewrite <- !key_str_some.
  assert (U : (forall u, text_at "use" k u -> u = "enc")
    <-> match key_str "use" k with Some u => String.eqb u "enc" | None => true end = true).
  { destruct (key_str "use" k) as [u|] eqn:E.
    - rewrite String.eqb_eq. apply key_str_some in E. split; [auto|]. intros -> u' E'. unfold text_at in *. congruence.
    - split; [reflexivity|]. intros _ u H. apply key_str_some in H. congruence. }
  rewrite U. clear U.
  destruct (key_str "alg" k) as [a|]; [|split; [discriminate|intros [H _]; discriminate]].
  destruct (String.eqb_spec a "ECDH-ES") as [->|N]; cbn [negb].
  2:{ split; [discriminate|]. intros [H _]. congruence. }
  destruct (key_str "crv" k) as [c|]; [|split; [discriminate|intros (_ & H & _); discriminate]].
  destruct (String.eqb_spec c "P-256") as [->|N]; cbn [negb].
  - tauto.
  - split; [discriminate|]. intros (_ & H & _). congruence.
Qed.
Lemma maybe_iff n k o : key_str n k = o <-> maybe_text n k o.
Proof.
  unfold maybe_text. destruct o as [s|]; [apply key_str_some|]. split.
  - intros H s E. apply key_str_some in E. congruence.
  - intros H. destruct (key_str n k) as [s|] eqn:E; [|reflexivity]. apply key_str_some in E. destruct (H s E).
Qed.
Lemma parsed_jwk (jwk_ok : obj -> bool) k : parsed_key k ->
  jwk_of_text jwk_ok (jprint (JObj k)) = if jwk_ok k then Ok k else Err "invalid JWK".
Proof. intros [W D]. unfold jwk_of_text. now rewrite json_text_rt. Qed.

(** C47: the key chosen is the first one usable for encryption, with its own key id; it is an error when no
    key is usable, and when the first usable key is not a valid JWK, even if a later one is. *)
Lemma c47_selection_pf :
  forall (jwk_ok : obj -> bool) (keys : list obj), Forall parsed_key keys ->
    (forall (k : obj) (alg : string) (kid : option string),
       find_encryption_jwk jwk_ok keys = Ok (mk_ki k alg kid)
       <-> first_key keys k /\ jwk_ok k = true /\ alg = "ECDH-ES" /\ maybe_text "kid" k kid)
    /\ ((forall k, In k keys -> ~ encryption_key k) -> exists e, find_encryption_jwk jwk_ok keys = Err e)
    /\ (forall k, first_key keys k -> jwk_ok k = false -> exists e, find_encryption_jwk jwk_ok keys = Err e).
Proof.
  intros jwk_ok keys F.
  assert (A : (exists k, first_key keys k /\ find_encryption_jwk jwk_ok keys =
                 if jwk_ok k then Ok (mk_ki k "ECDH-ES" (key_str "kid" k)) else Err "invalid JWK")
     \/ (forall k, In k keys -> ~ encryption_key k) /\ find_encryption_jwk jwk_ok keys = Err "no suitable encryption key found in JWKS").
  { induction F as [|k keys Hk F IH]; [right; split; [intros k []|reflexivity]|].
    cbn [find_encryption_jwk]. destruct (enc_candidate k) eqn:E.
    - left. exists k. apply candidate_iff in E. split; [exists [], keys; repeat split; try apply E; intros k' []|].
      rewrite parsed_jwk by exact Hk. destruct (jwk_ok k); [|reflexivity]. cbn [rbind].
      destruct E as [E _]. apply key_str_some in E. rewrite E. reflexivity.
    - assert (N : ~ encryption_key k) by (intros X; apply candidate_iff in X; congruence).
      destruct IH as [(k' & (a & b & -> & Hk' & Ha) & R)|[H R]].
      + left. exists k'. split; [|exact R]. exists (k :: a), b. split; [reflexivity|]. split; [exact Hk'|].
        intros x [<-|Hx]; auto.
      + right. split; [|exact R]. intros x [<-|Hx]; auto. }
  assert (U : forall k k', first_key keys k -> first_key keys k' -> k = k').
  { intros k k' (a & b & E1 & K1 & N1) (a' & b' & E2 & K2 & N2). rewrite E1 in E2. clear - E2 K1 N1 K2 N2.
    revert a' E2 N2. induction a as [|x a IH]; intros [|y a'] E N2; cbn in E.
    - congruence.
    - injection E as -> _. destruct (N2 y); cbn; auto.
    - injection E as -> _. destruct (N1 k'); cbn; auto.
    - injection E as -> E. apply (IH (fun k H => N1 k (or_intror H)) a' E). intros z Hz. apply N2. now right. }
  split; [|split].
  - intros k alg kid. destruct A as [(k0 & H0 & R)|[H R]]; rewrite R; clear R.
    + split.
      * destruct (jwk_ok k0) eqn:J; [|discriminate]. intros E. injection E as <- <- <-.
        split; [exact H0|]. split; [exact J|]. split; [reflexivity|]. now apply maybe_iff.
      * intros (H1 & J & -> & M). rewrite (U _ _ H0 H1) in *. rewrite J. apply maybe_iff in M. now rewrite M.
    + split; [discriminate|]. intros ((a & b & -> & K & _) & _). exfalso. apply (H k); [|exact K].
      apply in_or_app. right. now left.
  - intros H. destruct A as [(k0 & (a & b & -> & K & _) & R)|[_ R]]; [|eauto]. exfalso. apply (H k0); [|exact K].
    apply in_or_app. right. now left.
  - intros k H J. destruct A as [(k0 & H0 & R)|[H' R]]; [|eauto]. rewrite R, (U _ _ H0 H), J. eauto.
Qed.

Definition key_p256 (use kid : string) : obj :=
  [("alg", JStr "ECDH-ES"); ("crv", JStr "P-256"); ("kid", JStr kid); ("use", JStr use)].
Example c47_selection_ex :
  Forall parsed_key [key_p256 "sig" "1"; key_p256 "enc" "2"; key_p256 "enc" "3"]
  /\ find_encryption_jwk (fun _ => true) [key_p256 "sig" "1"; key_p256 "enc" "2"; key_p256 "enc" "3"]
     = Ok (mk_ki (key_p256 "enc" "2") "ECDH-ES" (Some "2")).
Proof.
  split; [|vm_compute; reflexivity].
  repeat constructor; cbn; lia.
Qed.

(* ------------------------------------------------------------ C48 *)
Lemma object_is_unique a b f : object_is a f -> object_is b f -> a = b.
Proof.
  intros [S1 G1] [S2 G2]. apply ksorted_ext; [now apply keys_sorted_iff|now apply keys_sorted_iff|].
  intros k. now rewrite G1, G2.
Qed.
Lemma jwe_header_is enc kid : object_is (jwe_header "ECDH-ES" enc kid) (jwe_members enc kid).
Proof.
  unfold jwe_header, jwe_members. split.
  - destruct kid; reflexivity.
  - intros n. destruct kid as [k|]; cbn [option_map].
    + rewrite obj_get_insert. destruct (String.eqb_spec n "kid") as [->|N]; [reflexivity|].
      rewrite obj_get_insert. destruct (String.eqb_spec n "enc") as [->|N1]; [reflexivity|].
      rewrite obj_get_insert. destruct (String.eqb_spec n "alg") as [->|N2]; [reflexivity|].
      rewrite obj_get_insert. destruct (String.eqb_spec n "typ") as [->|N3]; reflexivity.
    + rewrite obj_get_insert. destruct (String.eqb_spec n "enc") as [->|N1]; [reflexivity|].
      rewrite obj_get_insert. destruct (String.eqb_spec n "alg") as [->|N2]; [reflexivity|].
      rewrite obj_get_insert. destruct (String.eqb_spec n "typ") as [->|N3]; [reflexivity|].
      destruct (String.eqb n "kid"); reflexivity.
Qed.
Lemma claims_iff claims : forallb (fun kv => claim_ok (fst kv) (snd kv)) claims = true <-> registered_types claims.
Proof.
  unfold registered_types. rewrite forallb_forall.
  assert (A : forall k v, claim_ok k v = true <->
     (In k ["iss"; "sub"; "jti"] -> exists s, v = JStr s)
    /\ (k = "aud" -> (exists s, v = JStr s) \/ exists l, v = JArr (map JStr l))
    /\ (In k ["exp"; "nbf"; "iat"] -> exists z, v = JInt z /\ (0 <= z)%Z)).
  { intros k v. unfold claim_ok. destruct (mem_str k ["iss"; "sub"; "jti"]) eqn:E1.
    { apply mem_str_iff in E1. split.
      - intros H. split; [intros _; destruct v; try discriminate; eauto|].
        cbn in E1. split; intros X; exfalso; cbn in X; intuition (subst; discriminate).
      - intros [H _]. destruct (H E1) as [s ->]. reflexivity. }
    assert (N1 : ~ In k ["iss"; "sub"; "jti"]) by (intros X; apply mem_str_iff in X; congruence). clear E1.
    destruct (String.eqb_spec k "aud") as [->|N2].
    { split.
      - intros H. split; [tauto|]. split; [intros _|cbn; intuition discriminate].
        destruct v as [| | | |s|l|]; try discriminate; [eauto|]. right. clear N1. induction l as [|x l IH]; [exists []; reflexivity|].
        cbn [forallb] in H. apply andb_true_iff in H as [Hx Hl]. destruct (IH Hl) as [l' E]. injection E as ->.
        destruct x; try discriminate. exists (s :: l'). reflexivity.
      - intros (_ & H & _). destruct (H eq_refl) as [[s ->]|[l ->]]; [reflexivity|]. apply forallb_forall.
        intros x Hx. apply in_map_iff in Hx as (s & <- & _). reflexivity. }
    destruct (mem_str k ["exp"; "nbf"; "iat"]) eqn:E3.
    { apply mem_str_iff in E3. split.
      - intros H. split; [tauto|]. split; [tauto|]. intros _. destruct v; try discriminate.
        exists z. split; [reflexivity|]. now apply Z.leb_le.
      - intros (_ & _ & H). destruct (H E3) as (z & -> & Hz). now apply Z.leb_le. }
    assert (N3 : ~ In k ["exp"; "nbf"; "iat"]) by (intros X; apply mem_str_iff in X; congruence).
    split; [intros _; tauto|reflexivity]. }
  split.
  - intros H k v Hi. apply A. exact (H (k, v) Hi).
  - intros H [k v] Hi. apply A. cbn [fst snd]. now apply H.
Qed.

(** C48: a JWE is produced exactly from an object payload whose registered claims have their types, a
    recipient key and the alg ECDH-ES; what is encrypted, to that key, is the payload itself, under a header
    with exactly typ JWT, that alg, the configured enc (A128GCM by default) and the explicit key id or else
    the key's. *)
Lemma c48_build_pf :
  forall (jwe_encrypt : obj -> obj -> obj -> res string) (b : jwe_builder) (jwe : string),
    jwe_build jwe_encrypt b = Ok jwe <->
    exists claims key header kid,
      jb_payload b = Some (JObj claims) /\ registered_types claims
      /\ jb_key b = Some key /\ jb_alg b = Some "ECDH-ES"
      /\ match jb_kid b with Some k => kid = Some k | None => maybe_text "kid" key kid end
      /\ object_is header (jwe_members (match jb_enc b with Some e => e | None => "A128GCM" end) kid)
      /\ jwe_encrypt header claims key = Ok jwe.
Proof.
  intros enc b jwe. unfold jwe_build, DEFAULT_ENC. split.
  - destruct (jb_payload b) as [p|]; cbn [ok_or rbind]; [|discriminate].
    destruct (jb_key b) as [k|]; cbn [ok_or rbind]; [|discriminate].
    destruct (jb_alg b) as [a|]; cbn [ok_or rbind]; [|discriminate].
    destruct (String.eqb_spec a "ECDH-ES") as [->|]; cbn [of_bool rbind]; [|discriminate].
    destruct p as [| | | | | |m]; cbn [rbind]; try discriminate.
    destruct (forallb _ m) eqn:C; cbn [of_bool rbind]; [|discriminate]. apply claims_iff in C.
    intros H. exists m, k. eexists. exists (match jb_kid b with Some x => Some x | None => key_str "kid" k end).
    do 4 (split; [first [reflexivity|exact C]|]). split; [destruct (jb_kid b); [reflexivity|now apply maybe_iff]|].
    split; [|exact H]. apply jwe_header_is.
  - intros (m & k & h & kid & -> & C & -> & -> & K & Hh & H). cbn [ok_or rbind].
    change (String.eqb "ECDH-ES" "ECDH-ES") with true. cbn [of_bool rbind]. apply claims_iff in C. rewrite C. cbn [of_bool rbind].
    assert (E : match jb_kid b with Some x => Some x | None => key_str "kid" k end = kid).
    { destruct (jb_kid b); [now subst|now apply maybe_iff]. }
    rewrite E. now rewrite (object_is_unique _ _ _ (jwe_header_is _ kid) Hh).
Qed.

Example c48_build_ex :
  jwe_build (fun h c k => Ok (jprint (JArr [JObj h; JObj c])))
    (jb_set_key (key_p256 "enc" "k1") (jb_set_alg "ECDH-ES" (jb_set_payload (JObj [("iat", JInt 5); ("x", JNull)]) jb_new)))
  = Ok "[{""alg"":""ECDH-ES"",""enc"":""A128GCM"",""kid"":""k1"",""typ"":""JWT""},{""iat"":5,""x"":null}]"
  /\ jwe_build (fun h c k => Ok "")
    (jb_set_key (key_p256 "enc" "k1") (jb_set_alg "ECDH-ES" (jb_set_payload (JObj [("iss", JInt 5)]) jb_new))) = Err "bad claim".
Proof. split; vm_compute; reflexivity. Qed.

(* ------------------------------------------------------------ C49 *)
Lemma token_json_is t : NoDup (map fst t) -> token_json (vp_to_json t) t.
Proof.
  intros Hn. exists (obj_of_list (vp_members t)). split; [reflexivity|]. split; [apply keys_sorted_iff, ksorted_of_list|].
  assert (Hd : NoDup (map fst (vp_members t))) by (unfold vp_members; rewrite map_map; exact Hn).
  pose proof (obj_of_list_permutation _ Hd) as P. intros id j. split.
  - intros H. eapply Permutation_in in H; [|first [exact P|symmetry; exact P]]. unfold vp_members in H.
    apply in_map_iff in H as ([i l] & E & H). cbn [fst snd] in E. injection E as <- <-. exists l. split; [exact H|reflexivity].
  - intros (l & H & ->). eapply Permutation_in; [first [symmetry; exact P|exact P]|]. unfold vp_members.
    apply in_map_iff. exists (id, l). split; [reflexivity|exact H].
Qed.
Lemma token_json_unique v w t : token_json v t -> token_json w t -> v = w.
Proof.
  intros (m & -> & S1 & H1) (m' & -> & S2 & H2). f_equal. apply keys_sorted_iff in S1, S2.
  apply ksorted_ext; [exact S1|exact S2|].
  assert (X : forall m, ksorted m -> forall k v, obj_get k m = Some v <-> In (k, v) m).
  { clear. intros m S k v. split; [apply obj_get_in|]. apply ksorted_nodup in S.
    induction m as [|[k2 v2] l IH]; cbn [In map obj_get]; [contradiction|]. inversion S; subst. intros [E|Hin].
    - injection E as -> ->. now rewrite String.eqb_refl.
    - destruct (String.eqb_spec k k2) as [->|]; [|auto]. exfalso. apply H1. apply in_map_iff. now exists (k2, v). }
  intros k. destruct (obj_get k m) as [x|] eqn:E.
  - symmetry. apply X; [exact S2|]. apply H2, H1. now apply X.
  - destruct (obj_get k m') as [x|] eqn:E'; [|reflexivity]. apply X in E'; [|exact S2]. apply H2, H1 in E'.
    apply X in E'; [|exact S1]. congruence.
Qed.
Lemma payload_is t st : NoDup (map fst t) -> claims_of (response_payload t st) t st.
Proof.
  intros H. exists (vp_to_json t). split; [now apply token_json_is|]. split; [destruct st; reflexivity|].
  intros n. unfold response_payload. destruct st as [s|]; cbn [option_map].
  - rewrite obj_get_insert. destruct (String.eqb_spec n "state") as [->|N]; [reflexivity|]. cbn [obj_get]. reflexivity.
  - cbn [obj_get]. destruct (String.eqb n "vp_token"); [reflexivity|]. now destruct (String.eqb n "state").
Qed.
Lemma claims_unique c c' t st : claims_of c t st -> claims_of c' t st -> c = c'.
Proof.
  intros (v & T & O) (w & T' & O'). rewrite (token_json_unique _ _ _ T T') in O. exact (object_is_unique _ _ _ O O').
Qed.
Lemma payload_types t st : registered_types (response_payload t st).
Proof. apply claims_iff. destruct st; reflexivity. Qed.

(** C49: the encrypted response is a JWE of exactly the VP token and the state given, encrypted to the
    first usable key of the client's metadata, with the client's first enc value (A128GCM when it lists
    none) and that key's id; it is produced exactly when all of these exist and encryption succeeds. *)
Lemma c49_contents_pf :
  forall (jwk_ok : obj -> bool) (jwe_encrypt : obj -> obj -> obj -> res string)
         (a : aro) (vp : vp_token) (st : option string) (r : auth_response),
    parsed_key (aro_to_obj a) -> NoDup (map fst vp) ->
    (build_encrypted_response jwk_ok jwe_encrypt a vp st = Ok r <->
     exists cm keys key kid encs header claims jwe,
       r = Jwt jwe
       /\ client_metadata (aro_to_obj a) cm /\ client_keys cm keys /\ first_key keys key /\ jwk_ok key = true
       /\ maybe_text "kid" key kid /\ client_encs cm encs
       /\ object_is header (jwe_members (match encs with e :: _ => e | [] => "A128GCM" end) kid)
       /\ claims_of claims vp st
       /\ jwe_encrypt header claims key = Ok jwe).
Proof.
  intros jwk_ok enc a vp st r Pa Hn. unfold build_encrypted_response.
  assert (PE : forall cm keys, parsing_error (cm_jwks cm) = Ok keys <-> client_keys cm keys).
  { intros cm keys. rewrite <- keys_get. unfold cm_jwks, parsing_error. destruct (uo_get p_jwks cm) as [[x|e]|]; cbn; split; congruence. }
  assert (HE : forall l, match l with e :: _ => e | [] => DEFAULT_ENC end = match l with e :: _ => e | [] => "A128GCM" end)
    by reflexivity.
  assert (B : forall key kid e, parsed_key key -> jwk_ok key = true -> maybe_text "kid" key kid ->
     (let? b := jb_set_key_json jwk_ok (JObj key) (jb_set_payload (JObj (response_payload vp st)) jb_new) in
      let b := jb_set_enc e (jb_set_alg "ECDH-ES" b) in
      let b := match kid with Some k => jb_set_kid k b | None => b end in
      let? jwe := jwe_build enc b in Ok (Jwt jwe))
     = let? jwe := enc (jwe_header "ECDH-ES" e kid) (response_payload vp st) key in Ok (Jwt jwe)).
  { intros key kid e Hk J M. unfold jb_set_key_json. rewrite parsed_jwk by exact Hk. rewrite J. cbn [rbind].
    apply maybe_iff in M.
    pose proof (proj2 (claims_iff _) (payload_types vp st)) as T.
    assert (Z : jwe_build enc match kid with Some k => jb_set_kid k (jb_set_enc e (jb_set_alg "ECDH-ES" (jb_set_key key (jb_set_payload (JObj (response_payload vp st)) jb_new)))) | None => jb_set_enc e (jb_set_alg "ECDH-ES" (jb_set_key key (jb_set_payload (JObj (response_payload vp st)) jb_new))) end
      = enc (jwe_header "ECDH-ES" e kid) (response_payload vp st) key).
    { unfold jwe_build. destruct kid as [k|]; cbn [jb_payload jb_key jb_alg jb_enc jb_kid jb_set_kid jb_set_enc jb_set_alg jb_set_key jb_set_payload jb_new ok_or rbind];
        change (String.eqb "ECDH-ES" "ECDH-ES") with true; cbn [of_bool rbind]; rewrite T; cbn [of_bool rbind]; [reflexivity|].
      now rewrite M. }
    cbv zeta. rewrite Z. reflexivity. }
  split.
  - intros H. apply rbind_ok in H as (cm & Ec & H). apply rbind_ok in H as (keys & Ek & H).
    apply rbind_ok in H as ([key alg kid] & Ef & H). apply rbind_ok in H as (encs & Ee & H).
    apply metadata_get in Ec. apply PE in Ek. pose proof (parsed_keys _ _ _ Pa Ec Ek) as Pk.
    apply (c47_selection_pf jwk_ok keys Pk) in Ef as (Hf & J & -> & M). apply encs_get in Ee.
    assert (Pkey : parsed_key key).
    { destruct Hf as (x & y & -> & _). apply Forall_app in Pk as [_ Pk]. now inversion Pk. }
    cbn [ki_jwk ki_alg ki_kid] in H. cbv zeta in B. rewrite (B key kid _ Pkey J M) in H.
    apply rbind_ok in H as (jwe & Ej & H). injection H as <-.
    exists cm, keys, key, kid, encs. eexists. eexists. exists jwe. split; [reflexivity|].
    do 6 (split; [assumption|]). split; [apply jwe_header_is|]. split; [now apply payload_is|]. exact Ej.
  - intros (cm & keys & key & kid & encs & h & claims & jwe & -> & Ec & Ek & Hf & J & M & Ee & Hh & Hc & Ej).
    pose proof (parsed_keys _ _ _ Pa Ec Ek) as Pk.
    assert (Pkey : parsed_key key).
    { destruct Hf as (x & y & -> & _). apply Forall_app in Pk as [_ Pk']. now inversion Pk'. }
    apply metadata_get in Ec. rewrite Ec. cbn [rbind]. apply PE in Ek. rewrite Ek. cbn [rbind].
    assert (Ef : find_encryption_jwk jwk_ok keys = Ok (mk_ki key "ECDH-ES" kid)).
    { apply c47_selection_pf; auto. }
    rewrite Ef. cbn [rbind]. apply encs_get in Ee. unfold cm_encs. rewrite Ee. cbn [rbind ki_jwk ki_alg ki_kid].
    cbv zeta in B. rewrite (B key kid _ Pkey J M).
    match goal with |- context [jwe_header "ECDH-ES" ?q kid] =>
      change q with (match encs with e :: _ => e | [] => "A128GCM" end) end.
    rewrite (object_is_unique _ _ _ (jwe_header_is _ kid) Hh), (claims_unique _ _ _ _ (payload_is vp st Hn) Hc), Ej.
    reflexivity.
Qed.

Definition enc_request (extra : obj) (keys : list obj) : obj :=
  obj_insert "response_mode" (JStr "direct_post.jwt")
    (obj_insert "client_metadata" (JObj (obj_insert "jwks" (JObj [("keys", JArr (map JObj keys))]) extra)) sample_request).
Definition encrypted (extra : obj) (keys : list obj) (vp : vp_token) (st : option string) : res auth_response :=
  let? a := aro_of_obj simple_parse (enc_request extra keys) in
  build_encrypted_response (fun _ => true) (fun h c k => Ok (jprint (JArr [JObj h; JObj c]))) a vp st.
Example c49_contents_ex :
  parsed_key (enc_request [] [key_p256 "sig" "1"; key_p256 "enc" "2"])
  /\ encrypted [] [key_p256 "sig" "1"; key_p256 "enc" "2"] [("b", [VpString "x"]); ("a", [])] (Some "s")
     = Ok (Jwt "[{""alg"":""ECDH-ES"",""enc"":""A128GCM"",""kid"":""2"",""typ"":""JWT""},{""state"":""s"",""vp_token"":{""a"":[],""b"":[""x""]}}]").
Proof. split; [split; [vm_compute; reflexivity|apply Nat.leb_le; vm_compute; reflexivity]|vm_compute; reflexivity]. Qed.

(** C49: the holder of the selected key, who can decrypt, reads from the claims the token and the state that
    were sent. *)
Lemma c49_delivered_pf :
  forall (jwk_ok : obj -> bool) (jwe_encrypt : obj -> obj -> obj -> res string)
         (decrypt : obj -> string -> option (obj * obj))
         (a : aro) (vp : vp_token) (st : option string) (jwe : string),
    (forall h c k s, jwe_encrypt h c k = Ok s -> decrypt k s = Some (h, c)) ->
    parsed_key (aro_to_obj a) -> token_ok vp ->
    build_encrypted_response jwk_ok jwe_encrypt a vp st = Ok (Jwt jwe) ->
    exists cm keys key header claims vp',
      client_metadata (aro_to_obj a) cm /\ client_keys cm keys /\ first_key keys key
      /\ decrypt key jwe = Some (header, claims)
      /\ unencoded_of_obj claims = Ok (mk_unencoded vp' st) /\ Permutation vp vp'.
Proof.
  intros jwk_ok enc dec a vp st jwe D Pa Hv H.
  apply c49_contents_pf in H; [|exact Pa|apply Hv].
  destruct H as (cm & keys & key & kid & encs & h & claims & j & E & Ec & Ek & Hf & J & M & Ee & Hh & Hc & Ej).
  injection E as <-. destruct (vp_json_rt vp (proj1 Hv) (members_sorted_items vp Hv)) as (vp' & Er & P).
  exists cm, keys, key, h, claims, vp'. do 3 (split; [assumption|]). split; [now apply D|]. split; [|exact P].
  destruct Hc as (v & T & _ & G). rewrite (token_json_unique _ _ _ T (token_json_is vp (proj1 Hv))) in G.
  unfold unencoded_of_obj, unencoded_of_json. cbn [de_fields map rbind]. rewrite !G.
  change (String.eqb "vp_token" "vp_token") with true. change (String.eqb "state" "vp_token") with false.
  change (String.eqb "state" "state") with true. cbv iota.
  cbn [nth_fld nth f_req]. rewrite Er. cbn [rbind]. destruct st; reflexivity.
Qed.

Example c49_delivered_ex :
  exists (jwe_encrypt : obj -> obj -> obj -> res string) (decrypt : obj -> string -> option (obj * obj)),
    (forall h c k s, jwe_encrypt h c k = Ok s -> decrypt k s = Some (h, c))
    /\ exists s, jwe_encrypt (jwe_header "ECDH-ES" "A128GCM" None) [] [] = Ok s.
Proof.
  exists (fun h c k => if jwf (JArr [JObj h; JObj c]) && Nat.leb (jdepth (JArr [JObj h; JObj c])) 127
                       then Ok (jprint (JArr [JObj h; JObj c])) else Err "").
  exists (fun k s => match json_of_text s with Some (JArr [JObj h; JObj c]) => Some (h, c) | _ => None end).
  split.
  - intros h c k s. destruct (jwf (JArr [JObj h; JObj c])) eqn:W; cbn [andb]; [|discriminate].
    destruct (Nat.leb (jdepth (JArr [JObj h; JObj c])) 127) eqn:D; [|discriminate].
    intros H. assert (s = jprint (JArr [JObj h; JObj c])) as -> by congruence. apply Nat.leb_le in D. now rewrite (json_text_rt (JArr [JObj h; JObj c]) W D).
  - eexists. vm_compute. reflexivity.
Qed.

(* ------------------------------------------------------------ C50 *)
Definition jwt_wallet : wallet :=
  mk_wallet (mk_wm [("authorization_encryption_alg_values_supported", jstrs ["ECDH-ES"]);
         ("authorization_encryption_enc_values_supported", jstrs ["A256GCM"]);
         ("client_id_prefixes_supported", jstrs ["x509_san_dns"])] (mk_url "openid4vp" None "" true None None) [])
    (fun _ => Err "") (fun _ _ _ => Ok tt).
(** C50: a request can pass every check of the wallet in mode direct_post.jwt, its one key being marked for
    encryption with an algorithm the wallet lists, and still no response can be encrypted for it. *)
Lemma c50_unencryptable_refuted_pf :
  exists (w : wallet) (a : aro),
    ro_mode a = DirectPostJwt /\ snd (verify_request w a None) = Ok tt
    /\ forall jwk_ok jwe_encrypt vp st, exists e, build_encrypted_response jwk_ok jwe_encrypt a vp st = Err e.
Proof.
  set (o := enc_request [("encrypted_response_enc_values_supported", jstrs ["A256GCM"])]
              [[("alg", JStr "ECDH-ES"); ("crv", JStr "P-384"); ("use", JStr "enc")]]).
  destruct (aro_of_obj simple_parse o) as [a|] eqn:E; [|vm_compute in E; discriminate].
  exists jwt_wallet, a. vm_compute in E. injection E as <-.
  split; [reflexivity|]. split; [vm_compute; reflexivity|]. intros. eexists. reflexivity.
Qed.

(** C50: a request can pass every check of a wallet that lists only A256GCM, and the response is encrypted
    with an enc value the wallet does not list. *)
Lemma c50_enc_refuted_pf :
  exists (w : wallet) (a : aro) (header claims key : obj),
    ro_mode a = DirectPostJwt /\ snd (verify_request w a None) = Ok tt
    /\ obj_get "authorization_encryption_enc_values_supported" (wm_obj (w_metadata w)) = Some (JArr [JStr "A256GCM"])
    /\ text_at "enc" header "A128CBC-HS256"
    /\ forall jwk_ok jwe_encrypt, jwk_ok key = true ->
         build_encrypted_response jwk_ok jwe_encrypt a [] None = rmap Jwt (jwe_encrypt header claims key).
Proof.
  set (o := enc_request [("encrypted_response_enc_values_supported", jstrs ["A128CBC-HS256"; "A256GCM"])] [key_p256 "enc" "1"]).
  destruct (aro_of_obj simple_parse o) as [a|] eqn:E; [|vm_compute in E; discriminate].
  exists jwt_wallet, a, (jwe_header "ECDH-ES" "A128CBC-HS256" (Some "1")), [("vp_token", JObj [])], (key_p256 "enc" "1").
  assert (P : parsed_key (key_p256 "enc" "1")) by (split; [reflexivity|cbn; lia]).
  vm_compute in E. injection E as <-.
  split; [reflexivity|]. split; [vm_compute; reflexivity|]. split; [reflexivity|]. split; [reflexivity|].
  intros jwk_ok enc J. pose proof (parsed_jwk jwk_ok _ P) as K. rewrite J in K.
  unfold build_encrypted_response.
  set (cm := obj_insert "jwks" (JObj [("keys", JArr (map JObj [key_p256 "enc" "1"]))])
               [("encrypted_response_enc_values_supported", jstrs ["A128CBC-HS256"; "A256GCM"])]).
  match goal with |- context [resolve_client_metadata ?x] =>
    change (resolve_client_metadata x) with (Ok cm : res obj) end. cbn [rbind].
  change (parsing_error (cm_jwks cm)) with (Ok [key_p256 "enc" "1"]). cbn [rbind find_encryption_jwk].
  change (enc_candidate (key_p256 "enc" "1")) with true. cbv iota. rewrite K. cbn [rbind].
  change (ok_or (key_str "alg" (key_p256 "enc" "1")) "unreachable") with (Ok "ECDH-ES"). cbn [rbind].
  change (cm_encs cm) with (Ok ["A128CBC-HS256"; "A256GCM"]). cbn [rbind ki_jwk ki_alg ki_kid].
  unfold jb_set_key_json. rewrite K. cbn [rbind].
  change (key_str "kid" (key_p256 "enc" "1")) with (Some "1").
  change (jwe_build enc _) with (enc (jwe_header "ECDH-ES" "A128CBC-HS256" (Some "1")) [("vp_token", JObj [])] (key_p256 "enc" "1")).
  now destruct (enc _ _ _).
Qed.

(** C50: conversely a response could be encrypted for a request that the wallet refuses because the only key
    has no use member. *)
Lemma c50_refused_refuted_pf :
  exists (w : wallet) (a : aro),
    ro_mode a = DirectPostJwt /\ (exists e, snd (verify_request w a None) = Err e)
    /\ exists r, build_encrypted_response (fun _ => true) (fun h c k => Ok (jprint (JObj h))) a [] None = Ok r.
Proof.
  set (o := enc_request [("encrypted_response_enc_values_supported", jstrs ["A256GCM"])]
              [[("alg", JStr "ECDH-ES"); ("crv", JStr "P-256")]]).
  destruct (aro_of_obj simple_parse o) as [a|] eqn:E; [|vm_compute in E; discriminate].
  exists jwt_wallet, a. vm_compute in E. injection E as <-.
  split; [reflexivity|]. split; eexists; vm_compute; reflexivity.
Qed.

(** C50: when the wallet accepts a request in an encrypted mode, what remains to be checked before a response
    can be encrypted is exactly that some key is usable and that the first usable one is a valid JWK: then
    the outcome is that of the encryption itself. *)
Lemma c50_remaining_pf :
  forall (jwk_ok : obj -> bool) (jwe_encrypt : obj -> obj -> obj -> res string)
         (w : wallet) (a : aro) (jwt : option string) (vp : vp_token) (st : option string) (mode : string),
    parsed_key (aro_to_obj a) -> NoDup (map fst vp) ->
    text_at "response_mode" (aro_to_obj a) mode -> mode = "direct_post.jwt" \/ mode = "dc_api.jwt" ->
    snd (verify_request w a jwt) = Ok tt ->
    exists cm keys encs, client_metadata (aro_to_obj a) cm /\ client_keys cm keys /\ client_encs cm encs
      /\ ((exists r, build_encrypted_response jwk_ok jwe_encrypt a vp st = Ok r)
          <-> exists key kid header claims jwe, first_key keys key /\ jwk_ok key = true
                /\ maybe_text "kid" key kid
                /\ object_is header (jwe_members (match encs with e :: _ => e | [] => "A128GCM" end) kid)
                /\ claims_of claims vp st /\ jwe_encrypt header claims key = Ok jwe).
Proof.
  intros jwk_ok enc w a jwt vp st mode Pa Hn Hm Hj Hv.
  assert (A : validate_against_metadata (w_metadata w) a = Ok tt).
  { unfold verify_request in Hv. destruct (validate_against_metadata (w_metadata w) a) as [[]|]; [reflexivity|discriminate]. }
  apply c21_metadata_pf in A as (_ & cm & mode' & Hc & Hm' & O).
  assert (mode' = mode) as -> by (unfold text_at in *; congruence).
  destruct O as [->|[->|(_ & keys & encs & Hk & He & _)]]; [destruct Hj; discriminate|destruct Hj; discriminate|].
  assert (Uc : forall cm', client_metadata (aro_to_obj a) cm' -> cm' = cm).
  { intros cm' H. apply metadata_get in H, Hc. congruence. }
  assert (Uk : forall k', client_keys cm k' -> k' = keys) by (intros k' H; apply keys_get in H, Hk; congruence).
  assert (Ue : forall e', client_encs cm e' -> e' = encs) by (intros k' H; apply encs_get in H, He; congruence).
  exists cm, keys, encs. do 3 (split; [assumption|]). split.
  - intros (r & H). apply c49_contents_pf in H; [|assumption|assumption].
    destruct H as (cm' & keys' & key & kid & encs' & h & claims & j & E & Ec & Ek & Hf & J & M & Ee & Hh & Hcl & Ej).
    apply Uc in Ec as ->. apply Uk in Ek as ->. apply Ue in Ee as ->.
    exists key, kid, h, claims, j. repeat (split; [assumption|]). exact Ej.
  - intros (key & kid & h & claims & j & Hf & J & M & Hh & Hcl & Ej). exists (Jwt j).
    apply c49_contents_pf; [assumption|assumption|].
    exists cm, keys, key, kid, encs, h, claims, j. split; [reflexivity|]. repeat (split; [assumption|]). exact Ej.
Qed.

Example c50_remaining_ex :
  let o := enc_request [("encrypted_response_enc_values_supported", jstrs ["A256GCM"])] [key_p256 "enc" "1"] in
  match aro_of_obj simple_parse o with
  | Ok a => parsed_key (aro_to_obj a) /\ text_at "response_mode" (aro_to_obj a) "direct_post.jwt"
            /\ snd (verify_request jwt_wallet a None) = Ok tt
  | Err _ => False
  end.
Proof.
  cbv zeta. destruct (aro_of_obj simple_parse _) as [a|] eqn:E; [|vm_compute in E; discriminate].
  vm_compute in E. injection E as <-.
  split; [split; [vm_compute; reflexivity|apply Nat.leb_le; vm_compute; reflexivity]|].
  split; [reflexivity|vm_compute; reflexivity].
Qed.
