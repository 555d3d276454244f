From Coq Require Import Sorting.Permutation Lia ZifyBool ZifyN ZifyNat.
From Verif Require Import Base BaseFacts Base64Facts Json JsonFacts Serde MapFacts Url Object Formats Params
  Dcql Response Spec SpecObject ParamFacts UrlEncodedFacts.

Lemma p_string_rt k : param_rt (p_string k) (fun _ => True).
Proof. intros t _. exists (JStr t). split; reflexivity. Qed.
Lemma p_strings_rt k : param_rt (p_strings k) (fun _ => True).
Proof. intros t _. exists (jstrs t). split; [reflexivity|]. apply de_list_strs. Qed.
Lemma p_url_rt parse k : param_rt (p_url parse k) (fun u => parse (url_str u) = Some u).
Proof.
  intros u H. exists (JStr (url_str u)). split; [reflexivity|]. unfold p_url, de_url. cbn [tp_of de_str as_str ok_or rbind].
  now rewrite H.
Qed.

(** C03: every text-valued and text-list-valued request, client and wallet metadata parameter. *)
Lemma c03_text_params_pf :
  param_rt p_client_id (fun _ => True) /\ param_rt p_nonce (fun _ => True)
  /\ param_rt p_audience (fun _ => True) /\ param_rt p_state (fun _ => True)
  /\ param_rt p_issuer (fun _ => True) /\ param_rt p_id_token (fun _ => True)
  /\ param_rt p_expected_origins (fun _ => True) /\ param_rt p_transaction_data (fun _ => True)
  /\ param_rt p_client_id_prefixes (fun _ => True) /\ param_rt p_signing_algs (fun _ => True)
  /\ param_rt p_encryption_algs (fun _ => True) /\ param_rt p_encryption_encs (fun _ => True)
  /\ param_rt p_response_encs (fun _ => True).
Proof. repeat split; solve [apply p_string_rt | apply p_strings_rt]. Qed.

(** C03: enumerated parameters; a value that is not the catch-all spelled as a known name. *)
Lemma c03_enum_params_pf :
  param_rt p_response_mode canonical_mode
  /\ param_rt p_response_type canonical_type
  /\ param_rt p_request_uri_method (fun _ => True)
  /\ param_rt p_response_types_supported (Forall canonical_type).
Proof.
  repeat split.
  - intros m H. eexists. split; [reflexivity|]. cbn. now rewrite mode_rt.
  - intros m H. eexists. split; [reflexivity|]. cbn. now rewrite rtype_rt.
  - intros m _. eexists. split; [reflexivity|]. destruct m; reflexivity.
  - intros l H. eexists. split; [reflexivity|]. cbn [tp_of p_response_types_supported].
    unfold jstrs. rewrite map_map. apply de_list_map. revert H. apply Forall_impl.
    intros t H. cbn. now rewrite rtype_rt.
Qed.

Example c03_enum_params_ex :
  canonical_mode (UnsupportedMode "query") /\ canonical_type (UnsupportedType "code")
  /\ Forall canonical_type [RtVpToken; UnsupportedType "code"]
  /\ ~ canonical_mode (UnsupportedMode "dc_api").
Proof. repeat split; cbn; try (intuition discriminate). repeat constructor; cbn. intuition discriminate. Qed.

(** C03: URL-valued parameters, for every URL whose text the URL parser reads back. *)
Lemma c03_url_params_pf :
  forall parse : string -> option url,
    param_rt (p_redirect_uri parse) (fun u => parse (url_str u) = Some u)
    /\ param_rt (p_response_uri parse) (fun u => parse (url_str u) = Some u)
    /\ param_rt (p_authorization_endpoint parse) (fun u => parse (url_str u) = Some u).
Proof. intros parse. repeat split; apply p_url_rt. Qed.

Example c03_url_params_ex :
  let u := mk_url "https" (Some "example.com:8080") "/a/b" false (Some "x=y") None in
  simple_parse (url_str u) = Some u.
Proof. reflexivity. Qed.

(** C03: object-, key-set-, JSON-list- and query-valued parameters. *)
Lemma c03_structured_params_pf :
  param_rt p_client_metadata (fun _ => True)
  /\ param_rt p_verifier_info (fun _ => True)
  /\ param_rt p_jwks (fun _ => True)
  /\ param_rt p_dcql dcql_ok.
Proof.
  repeat split.
  - intros m _. eexists. split; reflexivity.
  - intros l _. eexists. split; [reflexivity|]. cbn [tp_of p_verifier_info]. cbn [de_list].
    rewrite <- (map_id l) at 1. apply (mapM_id de_json (fun x => x)). now apply Forall_all.
  - intros ks _. eexists. split; [reflexivity|]. apply jwks_rt.
  - intros q H. eexists. split; [reflexivity|]. now apply dcql_rt.
Qed.

Example c03_structured_params_ex :
  dcql_ok (mk_dcql [mk_cred "pid" MsoMDoc [("doctype_value", JStr "eu.europa.ec.eudi.pid.1")]
                      (Some [mk_claims (Some "a") [PeStr "ns"; PeInt 3; PeNull] (Some [CvInt (-5); CvBool true]) None])
                      (Some [["a"]]) (Some [mk_auths AtAki ["x"]]) (Some true) None]
                   (Some [mk_set [["pid"]] (Some false)])).
Proof.
  split; [split; [discriminate|]|].
  - repeat constructor; cbn; try discriminate; try (intros H; exact H); try lia; repeat constructor; cbn; lia.
  - split; [discriminate|]. repeat constructor. discriminate.
Qed.

(** C03: parameters holding a hash map come back with the same entries, in whatever order. *)
Lemma c03_map_params_pf :
  (forall m, format_map_ok m ->
     (exists v m', tp_to p_vp_formats_supported m = Ok v /\ tp_of p_vp_formats_supported v = Ok m'
                   /\ Permutation m m' /\ forall d, fm_get d m' = fm_get d m)
     /\ (exists v m', tp_to p_vp_formats m = Ok v /\ tp_of p_vp_formats v = Ok m' /\ Permutation m m'
                      /\ forall d, fm_get d m' = fm_get d m))
  /\ (forall t, vp_ok t -> Forall (fun e => Forall (fun i => match i with
                                                  | VpObject m => jsorted (JObj m) = true
                                                  | VpString _ => True end) (snd e)) t ->
        exists v t', tp_to p_vp_token t = Ok v /\ tp_of p_vp_token v = Ok t' /\ Permutation t t').
Proof.
  split.
  - intros m H. destruct (format_map_rt m H) as (m' & H1 & H2).
    assert (G : forall d, fm_get d m' = fm_get d m).
    { intros d. symmetry. apply fm_get_perm; [exact H2|]. apply H. }
    split; (exists (format_map_to_json m), m'; repeat split; assumption).
  - intros t H1 H2. destruct (vp_json_rt t H1) as (t' & H3 & H4); [exact H2|].
    exists (vp_to_json t), t'. repeat split; assumption.
Qed.

Example c03_map_params_ex :
  format_map_ok [(MsoMDoc, OtherPayload (JObj [])); (DcSdJwt, AlgValues ["ES256"]);
                 (OtherFormat "x", ProofTypeValues [])].
Proof.
  split; [repeat constructor; cbn; intuition discriminate|].
  repeat constructor; cbn; try (intros; split; discriminate); intuition discriminate.
Qed.

(** C03: hence inserting any such value into an object and reading it back gives the value. *)
Lemma c03_insert_get_pf :
  forall (T : Type) (P : tparam T) (ok : T -> Prop) (t : T) (o : obj),
    param_rt P ok -> ok t -> uo_get P (fst (uo_insert P t o)) = Some (Ok t).
Proof.
  intros T P ok t o H Ht. destruct (H t Ht) as (v & H1 & H2). unfold uo_insert. rewrite H1. cbn [fst].
  unfold uo_get. now rewrite obj_get_insert_eq, H2.
Qed.

Example c03_insert_get_ex :
  uo_get p_response_mode (fst (uo_insert p_response_mode DcApiJwt [("response_mode", JStr "direct_post")]))
  = Some (Ok DcApiJwt).
Proof. reflexivity. Qed.

(* ------------------------------------------------------------ C04 *)
Lemma split_all_hd c s :
  match split_once c s with
  | Some (a, _) => exists r, split_all c s = a :: r
  | None => split_all c s = [s]
  end.
Proof.
  induction s as [|d s IH]; cbn [split_once split_all]; [reflexivity|].
  destruct (Ascii.eqb c d) eqn:E; [eauto|].
  destruct (split_once c s) as [[a b]|].
  - destruct IH as [r ->]. eauto.
  - now rewrite IH.
Qed.

(** C04: the prefix is the text before the first colon; no colon, no prefix. *)
Lemma c04_prefix_pf :
  forall client_id : string,
    (forall p, resolve_prefix client_id = Some p
               <-> exists rest, client_id = p +:+ ":" +:+ rest /\ has_char ":" p = false)
    /\ (resolve_prefix client_id = None <-> ~ exists a b, client_id = a +:+ ":" +:+ b).
Proof.
  intros c. unfold resolve_prefix. pose proof (split_all_hd ":" c) as H.
  destruct (has_char ":" c) eqn:E.
  - destruct (split_once ":" c) as [[a b]|] eqn:S.
    + destruct H as [r ->]. split.
      * intros p. split.
        -- intros Q. injection Q as <-. exists b. now apply split_once_some in S.
        -- intros (rest & -> & Hp). f_equal.
           assert (S' : split_once ":" (p +:+ ":" +:+ rest) = Some (p, rest)) by (apply split_once_some; auto).
           rewrite S in S'. congruence.
      * split; [discriminate|]. intros Hn. exfalso. apply Hn. apply has_char_iff in E. exact E.
    + apply split_once_none in S. congruence.
  - split.
    + intros p. split; [discriminate|]. intros (rest & -> & _).
      assert (X : has_char ":" (p +:+ String ":" rest) = true) by (apply has_char_iff; eauto).
      change (":" +:+ rest) with (String ":" rest) in E. congruence.
    + split; [|reflexivity]. intros _ Hx. apply has_char_iff in Hx. congruence.
Qed.

Example c04_prefix_ex :
  resolve_prefix "decentralized_identifier:did:example:1" = Some "decentralized_identifier"
  /\ resolve_prefix "client" = None /\ resolve_prefix ":x" = Some "".
Proof. repeat split. Qed.

(* ------------------------------------------------------------ C05 *)
(** C05: response mode names are recognised exactly and printed back unchanged. *)
Lemma c05_modes_pf :
  forall s : string,
    (mode_of_string s = DirectPost <-> s = "direct_post")
    /\ (mode_of_string s = DirectPostJwt <-> s = "direct_post.jwt")
    /\ (mode_of_string s = DcApi <-> s = "dc_api")
    /\ (mode_of_string s = DcApiJwt <-> s = "dc_api.jwt")
    /\ (forall x, mode_of_string s = UnsupportedMode x
                  <-> x = s /\ ~ In s ["direct_post"; "direct_post.jwt"; "dc_api"; "dc_api.jwt"])
    /\ mode_to_string (mode_of_string s) = s.
Proof.
  intros s. refine (conj _ (conj _ (conj _ (conj _ (conj _ (mode_to_of s)))))); try intros x; unfold mode_of_string;
  repeat match goal with
  | |- context [String.eqb s ?x] => destruct (String.eqb_spec s x) as [->|?]
  end;
  cbn [In]; split; try congruence;
  try (intros [_ X]; exfalso; apply X; tauto);
  try (intros X; injection X as <-; split; [reflexivity|intuition congruence]);
  try (intros [-> _]; reflexivity).
Qed.

Example c05_modes_ex :
  mode_of_string "direct_post.jwt" = DirectPostJwt /\ mode_of_string "DIRECT_POST" = UnsupportedMode "DIRECT_POST".
Proof. split; reflexivity. Qed.

(** C05: reading the parameter: absent means direct_post; a mode asks for an encrypted response exactly
    when its name is direct_post.jwt or dc_api.jwt; an unknown mode is an error. *)
Lemma c05_jarm_pf :
  forall (o : obj) (m : response_mode),
    uo_get_or_default p_response_mode default_mode o = Ok m ->
    (obj_get "response_mode" o = None /\ m = DirectPost
     \/ exists s, obj_get "response_mode" o = Some (JStr s) /\ mode_to_string m = s)
    /\ (is_jarm m = Ok true <-> In (mode_to_string m) ["direct_post.jwt"; "dc_api.jwt"] /\ canonical_mode m)
    /\ (is_jarm m = Ok false <-> In (mode_to_string m) ["direct_post"; "dc_api"] /\ canonical_mode m)
    /\ ((exists e, is_jarm m = Err e)
        <-> ~ In (mode_to_string m) ["direct_post"; "direct_post.jwt"; "dc_api"; "dc_api.jwt"]).
Proof.
  intros o m H. unfold uo_get_or_default in H. cbn [tp_key p_response_mode] in H.
  assert (K : canonical_mode m).
  { destruct (obj_get "response_mode" o) as [v|].
    - cbn [tp_of] in H. destruct v; cbn in H; try discriminate. injection H as <-.
      pose proof (c05_modes_pf s) as (_ & _ & _ & _ & X & _).
      destruct (mode_of_string s) as [| | | |x] eqn:E; try exact I.
      specialize (X x) as [X _]. destruct (X eq_refl) as [-> Y]. exact Y.
    - injection H as <-. exact I. }
  split; [|split; [|split]].
  - destruct (obj_get "response_mode" o) as [v|].
    + right. cbn [tp_of] in H. destruct v; cbn in H; try discriminate. injection H as <-.
      exists s. split; [reflexivity|apply mode_to_of].
    + left. injection H as <-. split; reflexivity.
  - destruct m; cbn in *; split; intros X; try (intuition discriminate); try tauto.
  - destruct m; cbn in *; split; intros X; try (intuition discriminate); try tauto.
  - destruct m; cbn in *; split; intros X; try (destruct X as [e X]; discriminate); try (exfalso; tauto).
    + tauto.
    + eauto.
Qed.

Example c05_jarm_ex :
  uo_get_or_default p_response_mode default_mode [("response_mode", JStr "dc_api.jwt")] = Ok DcApiJwt
  /\ is_jarm DcApiJwt = Ok true.
Proof. split; reflexivity. Qed.

(* ------------------------------------------------------------ C64 *)
Lemma draw_unfold words n : sample_string words (S n) =
  match words with
  | [] => None
  | w :: ws => match alnum_char w with
               | Some c => option_map (String c) (sample_string ws n)
               | None => sample_string ws (S n)
               end
  end.
Proof. destruct words as [|w ws]; [reflexivity|]. cbn [sample_string]. destruct (alnum_char w); [reflexivity|destruct ws; reflexivity]. Qed.

Definition alnum_list : list ascii := list_ascii_of_string alnum_charset.
Definition alnumb (c : ascii) : bool :=
  let b := byte c in
  (((48 <=? b) && (b <=? 57)) || ((65 <=? b) && (b <=? 90)) || ((97 <=? b) && (b <=? 122)))%N.
Lemma alnumb_iff c : alnumb c = true <-> alphanumeric c.
Proof. unfold alnumb, alphanumeric. lia. Qed.

Lemma charset_spec i : i < 62 -> exists c, String.get i alnum_charset = Some c /\ alnumb c = true.
Proof.
  intros H.
  assert (F : forallb (fun i => match String.get i alnum_charset with Some c => alnumb c | None => false end)
                      (seq 0 62) = true) by (vm_compute; reflexivity).
  rewrite forallb_forall in F. specialize (F i). rewrite in_seq in F. specialize (F (conj (Nat.le_0_l _) H)).
  destruct (String.get i alnum_charset) as [c|]; [eauto|discriminate].
Qed.

Lemma alnum_char_ok w c : alnum_char w = Some c -> alphanumeric c.
Proof.
  unfold alnum_char. destruct (N.shiftr w 26 <? 62)%N eqn:E; [|discriminate]. intros H.
  destruct (charset_spec (N.to_nat (N.shiftr w 26))) as (c' & H1 & H2); [lia|].
  apply alnumb_iff. congruence.
Qed.

(** C64: whatever the random source delivers, a nonce of length [n] consists of exactly [n] letters and
    digits. *)
Lemma c64_nonce_pf :
  forall (words : list N) (n : nat) (s : string),
    sample_string words n = Some s ->
    String.length s = n /\ Forall alphanumeric (list_ascii_of_string s).
Proof.
  induction words as [|w ws IH]; intros n s H.
  - destruct n; [|rewrite draw_unfold in H; discriminate]. injection H as <-. split; constructor.
  - destruct n as [|n]; [injection H as <-; split; constructor|].
    rewrite draw_unfold in H. destruct (alnum_char w) as [c|] eqn:E; [|now apply IH].
    destruct (sample_string ws n) as [t|] eqn:T; [|discriminate]. injection H as <-.
    destruct (IH _ _ T) as [H1 H2]. cbn. split; [congruence|].
    constructor; [now apply alnum_char_ok in E|exact H2].
Qed.

Example c64_nonce_ex :
  sample_string [0; 4294967295; 67108864; 4093640704]%N 3 = Some "AB9".
Proof. reflexivity. Qed.

Definition charset_at (c : ascii) (i : nat) : bool :=
  match String.get i alnum_charset with Some d => Ascii.eqb c d | None => false end.
Definition once_ok (c : ascii) : bool :=
  if alnumb c then Nat.eqb (length (filter (charset_at c) (seq 0 62))) 1 else true.
Lemma charset_once_all : forallb once_ok all_ascii = true.
Proof. vm_compute. reflexivity. Qed.
Lemma once_ok_all c : once_ok c = true.
Proof. exact (proj1 (forallb_forall once_ok all_ascii) charset_once_all c (all_ascii_in c)). Qed.
Lemma charset_once c : alnumb c = true -> length (filter (charset_at c) (seq 0 62)) = 1.
Proof.
  intros Hc. pose proof (once_ok_all c) as F. unfold once_ok in F. rewrite Hc in F. now apply Nat.eqb_eq.
Qed.

Lemma shiftr26 w : N.shiftr w 26 = (w / 67108864)%N.
Proof. now rewrite N.shiftr_div_pow2. Qed.
Lemma uniform1 c : alphanumeric c ->
     exists! i, (i < 62)%N /\ forall w, alnum_char w = Some c <-> (w / 67108864 = i)%N.
Proof.
  intros Hc. apply alnumb_iff in Hc.
    pose proof (charset_once c Hc) as F.
    set (g := charset_at c) in F.
    destruct (filter g (seq 0 62)) as [|i [|j r]] eqn:L; try discriminate.
    assert (Hi : forall k, (k < 62 /\ g k = true) <-> k = i).
    { intros k. transitivity (In k (filter g (seq 0 62))).
      - rewrite filter_In, in_seq. intuition lia.
      - rewrite L. cbn. intuition congruence. }
    exists (N.of_nat i). split.
    + destruct (Hi i) as [_ Hx]. destruct (Hx eq_refl) as [H1 H2]. split; [lia|].
      intros w. unfold alnum_char. rewrite shiftr26.
      destruct (w / 67108864 <? 62)%N eqn:E.
      * split.
        -- intros Hg. specialize (Hi (N.to_nat (w / 67108864))).
           assert (X : N.to_nat (w / 67108864) = i).
           { apply Hi. split; [lia|]. unfold g, charset_at. rewrite Hg. apply Ascii.eqb_refl. }
           lia.
        -- intros ->. rewrite Nat2N.id. unfold g, charset_at in H2.
           destruct (String.get i alnum_charset) as [d|]; [|discriminate].
           apply Ascii.eqb_eq in H2. congruence.
      * split; [discriminate|]. intros X. lia.
    + intros i' [Hi' Hw]. specialize (Hw (i' * 67108864)%N).
      rewrite N.div_mul in Hw by discriminate. destruct Hw as [_ Hw]. specialize (Hw eq_refl).
      unfold alnum_char in Hw. rewrite shiftr26, N.div_mul in Hw by discriminate.
      replace (i' <? 62)%N with true in Hw by lia.
      assert (X : N.to_nat i' = i).
      { apply Hi. split; [lia|]. unfold g, charset_at. rewrite Hw. apply Ascii.eqb_refl. }
      lia.
Qed.
Lemma uniform2 w : alnum_char w = None <-> (62 <= w / 67108864)%N.
Proof.
  unfold alnum_char. rewrite shiftr26. destruct (w / 67108864 <? 62)%N eqn:E.
    + destruct (charset_spec (N.to_nat (w / 67108864))) as (d & -> & _); [lia|]. split; [discriminate|lia].
    + split; [lia|reflexivity].
Qed.
Lemma uniform3 words : forall n, n <= length (filter (fun w => w / 67108864 <? 62)%N words) ->
        exists s, sample_string words n = Some s.
Proof.
  induction words as [|w ws IH]; intros n H; cbn [filter length] in H.
    + assert (n = 0) by lia. subst. now exists EmptyString.
    + destruct n as [|n]; [now exists EmptyString|]. rewrite draw_unfold. unfold alnum_char. rewrite shiftr26.
      destruct (w / 67108864 <? 62)%N eqn:E.
      * destruct (charset_spec (N.to_nat (w / 67108864))) as (d & -> & _); [lia|].
        cbn [length] in H. destruct (IH n) as [s ->]; [lia|]. cbn. eauto.
      * now apply IH.
Qed.

(** C64: every letter or digit is the image of exactly one value of the six random bits used, so
    accepted random words give uniformly distributed characters; a nonce is produced as soon as enough
    words are accepted. *)
Lemma c64_uniform_pf :
  (forall c, alphanumeric c ->
     exists! i, (i < 62)%N /\ forall w, alnum_char w = Some c <-> (w / 67108864 = i)%N)
  /\ (forall w, alnum_char w = None <-> (62 <= w / 67108864)%N)
  /\ (forall words n, n <= length (filter (fun w => w / 67108864 <? 62)%N words) ->
        exists s, sample_string words n = Some s).
Proof. exact (conj uniform1 (conj uniform2 uniform3)). Qed.

Example c64_uniform_ex : alphanumeric "q" /\ ~ alphanumeric "-".
Proof. unfold alphanumeric. cbn. lia. Qed.
