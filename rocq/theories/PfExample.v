From Coq Require Import Lia.
From Verif Require Import Base BaseFacts Utf8 Json JsonFacts JsonText JsonTextFacts Base64 Base64Facts Sha256 Serde Url UrlEncoded
  UrlEncodedFacts Object Formats Params Metadata Dcql Effects Jwt Request Response Jwe ExMatcher ExWallet
  Verify Client Spec SpecRequest PfRequest PfResolve PfClient PfVerify SpecJwe PfJwe SpecResponse PfResponse SpecExample.

(* ------------------------------------------------------------ C67 *)
Section Match.
Variable lower : string -> string.

Lemma designation_eq a b : designation_eqb a b = true <-> a = b.
Proof. destruct a, b; cbn; try (split; congruence). rewrite String.eqb_eq. split; congruence. Qed.
Lemma format_iff a b : format_matches lower a b = true <-> same_format lower a b.
Proof.
  unfold format_matches, same_format. rewrite orb_true_iff, designation_eq. split; (intros [H|H]; [now left|right]).
  - destruct a, b; try discriminate. apply String.eqb_eq in H. eauto.
  - destruct H as (x & y & -> & -> & H). now apply String.eqb_eq.
Qed.
Lemma vcts_iff q l : vct_values q = Some l -> lists_types q /\ forall v, In v l <-> lists_type q v.
Proof.
  unfold vct_values, lists_types, lists_type. destruct (obj_get "vct_values" (cq_meta q)) as [[| | | | |a|]|]; try discriminate.
  intros H. injection H as <-. split; [eauto|]. intros v. rewrite in_flat_map. split.
  - intros (x & Hx & Hv). destruct x; cbn [as_str] in Hv; try contradiction. destruct Hv as [<-|[]]. eauto.
  - intros (a' & E & H). injection E as <-. exists (JStr v). split; [exact H|now left].
Qed.
Lemma vcts_none q : vct_values q = None -> ~ lists_types q.
Proof.
  unfold vct_values, lists_types. intros H (l & E). now rewrite E in H.
Qed.
Lemma doctype_iff q d : doctype_value q = Some d <-> asks_doctype q d.
Proof.
  unfold doctype_value, asks_doctype, text_at. destruct (obj_get "doctype_value" (cq_meta q)) as [v|]; [|split; discriminate].
  destruct v; cbn [as_str]; split; congruence.
Qed.
Lemma required_iff q n : In n (required_claims q) <-> requires_claim q n.
Proof.
  unfold required_claims, requires_claim. destruct (cq_claims q) as [l|].
  - rewrite in_flat_map. split.
    + intros (c & Hc & H). unfold path_claims in H. apply in_flat_map in H as (e & He & H).
      destruct e as [s| |]; try contradiction. destruct (has_char "." s) eqn:D; [contradiction|]. cbn [orb] in H.
      destruct (starts_with "org." s); [contradiction|]. destruct H as [<-|[]]. exists l, c. auto.
    + intros (l' & c & E & Hc & Hp & D). injection E as <-. exists c. split; [exact Hc|].
      unfold path_claims. apply in_flat_map. exists (PeStr n). split; [exact Hp|]. rewrite D. cbn [orb].
      destruct (starts_with "org." n) eqn:S; [|now left]. apply starts_with_iff in S as (r & ->).
      rewrite has_char_app in D. discriminate.
  - split; [contradiction|]. intros (l & c & E & _). discriminate.
Qed.

Definition qualifies (q : cred_query) (c : credential) : bool :=
  format_matches lower (mc_format c) (cq_format q)
  && match vct_values q with
     | Some vcts => match mc_vct c with Some v => mem_str v vcts | None => false end
     | None => match doctype_value q with
               | Some dt => match mc_doctype c with Some d => String.eqb d dt | None => false end
               | None => forallb (fun x => mem_str x (map fst (mc_claims c))) (required_claims q)
               end
     end.
Lemma match_find store q : match_credential lower store q = ok_or (find (qualifies q) store) "no matching credential".
Proof.
  unfold match_credential, qualifies. f_equal.
  destruct (vct_values q) as [l|]; [reflexivity|]. destruct (doctype_value q) as [d|]; [reflexivity|].
  destruct (required_claims q) as [|n r]; [|reflexivity].
  unfold find_by_format. induction store as [|c s IH]; [reflexivity|]. cbn [find forallb]. rewrite andb_true_r. now rewrite IH.
Qed.
Lemma qualifies_iff q c : qualifies q c = true <-> satisfies lower q c.
Proof.
  unfold qualifies, satisfies. rewrite andb_true_iff, format_iff.
  destruct (vct_values q) as [l|] eqn:V.
  - apply vcts_iff in V as [T V]. split.
    + intros [F H]. split; [exact F|]. split; [|split; intros N; contradiction].
      intros _. destruct (mc_vct c) as [v|]; [|discriminate]. exists v. split; [reflexivity|]. apply V. now apply mem_str_iff.
    + intros (F & H & _). split; [exact F|]. destruct (H T) as (v & E & L). rewrite E. apply mem_str_iff, V, L.
  - apply vcts_none in V. destruct (doctype_value q) as [d|] eqn:D.
    + apply doctype_iff in D. split.
      * intros [F H]. split; [exact F|]. split; [intros T; contradiction|]. split.
        -- intros _ d' D'. destruct (mc_doctype c) as [x|]; [|discriminate]. apply String.eqb_eq in H as ->.
           unfold asks_doctype, text_at in *. congruence.
        -- intros _ N. now apply N in D.
      * intros (F & _ & H & _). split; [exact F|]. rewrite (H V d D). apply String.eqb_refl.
    + assert (N : forall d, ~ asks_doctype q d) by (intros d A; apply doctype_iff in A; congruence).
      split.
      * intros [F H]. split; [exact F|]. split; [intros T; contradiction|]. split; [intros _ d A; now apply N in A|].
        intros _ _ n R. rewrite forallb_forall in H. apply required_iff in R. apply H in R. apply mem_str_iff, in_map_iff in R as ([k v] & E & I).
        cbn [fst] in E. subst. eauto.
      * intros (F & _ & _ & H). split; [exact F|]. apply forallb_forall. intros n R. apply required_iff in R.
        destruct (H V N n R) as (v & I). apply mem_str_iff, in_map_iff. now exists (n, v).
Qed.

Lemma sel_add_in id raw s k l :
  In (k, l) (sel_add id raw s) ->
  In (k, l) s \/ k = id /\ (l = [raw] \/ exists l', In (id, l') s /\ l = l' ++ [raw]).
Proof.
  induction s as [|[k' l'] s IH]; cbn [sel_add].
  - intros [E|[]]. injection E as <- <-. right. auto.
  - destruct (String.eqb_spec k' id) as [->|N]; intros [E|H].
    + injection E as <- <-. right. split; [reflexivity|]. right. exists l'. split; [now left|reflexivity].
    + left. now right.
    + left. now left.
    + destruct (IH H) as [I|(-> & [->|(l0 & I & ->)])]; [left; now right|right; auto|right]. split; [reflexivity|].
      right. exists l0. split; [now right|reflexivity].
Qed.
Lemma sel_add_has id raw s : exists l, In (id, l) (sel_add id raw s) /\ In raw l.
Proof.
  induction s as [|[k' l'] s (l & I & R)]; cbn [sel_add]; [exists [raw]; split; now left|].
  destruct (String.eqb_spec k' id) as [->|N]; [exists (l' ++ [raw]); split; [now left|apply in_or_app; right; now left]|].
  exists l. split; [now right|exact R].
Qed.
Lemma sel_add_keeps id raw s k l x : In (k, l) s -> In x l -> exists l', In (k, l') (sel_add id raw s) /\ In x l'.
Proof.
  induction s as [|[k' l'] s IH]; [contradiction|]. cbn [sel_add]. intros [E|H] X.
  - injection E as -> ->. destruct (String.eqb_spec k id) as [->|N].
    + exists (l ++ [raw]). split; [now left|apply in_or_app; now left].
    + exists l. split; [now left|exact X].
  - destruct (String.eqb_spec k' id) as [->|N]; [exists l; split; [now right|exact X]|].
    destruct (IH H X) as (l2 & I & Y). exists l2. split; [now right|exact Y].
Qed.
Lemma sel_add_nodup id raw s : NoDup (map fst s) -> NoDup (map fst (sel_add id raw s)).
Proof.
  induction s as [|[k l] s IH]; cbn [sel_add map fst]; [intros _; constructor; [easy|constructor]|].
  intros H. inversion H as [|? ? N D]; subst. destruct (String.eqb_spec k id) as [->|K]; cbn [map fst]; [exact H|].
  constructor; [|auto]. intros I. apply in_map_iff in I as ([k2 l2] & E & I). cbn [fst] in E. subst k2.
  apply sel_add_in in I as [I|(E & _)]; [|congruence]. apply N. apply in_map_iff. now exists (k, l2).
Qed.
Lemma sel_add_nonempty id raw s : sel_add id raw s <> [].
Proof. destruct s as [|[k l] s]; cbn; [easy|]. now destruct (String.eqb k id). Qed.
Lemma match_all_nonempty store qs : forall s sel, s <> [] -> match_all lower store qs s = Ok sel -> sel <> [].
Proof.
  induction qs as [|q qs IH]; intros s sel N; cbn [match_all]; [now intros [= <-]|].
  intros H. apply rbind_ok in H as (c & _ & H). eapply IH; [|exact H]. apply sel_add_nonempty.
Qed.

(** Credentials selected so far come from [done]. *)
Definition sound (store : list credential) (done : list cred_query) (s : selection) : Prop :=
  NoDup (map fst s)
  /\ (forall q, In q done -> exists raws c, In (cq_id q, raws) s /\ In (mc_raw c) raws /\ In c store /\ satisfies lower q c)
  /\ (forall id raws raw, In (id, raws) s -> In raw raws ->
        exists q c, In q done /\ cq_id q = id /\ In c store /\ mc_raw c = raw /\ satisfies lower q c).
Lemma match_all_sound store qs : forall done s sel,
  sound store done s -> match_all lower store qs s = Ok sel -> sound store (done ++ qs) sel.
Proof.
  induction qs as [|q qs IH]; intros done s sel S; cbn [match_all].
  - intros [= <-]. now rewrite app_nil_r.
  - intros H. apply rbind_ok in H as (c & E & H). replace (done ++ q :: qs) with ((done ++ [q]) ++ qs) by now rewrite <- app_assoc.
    eapply IH; [|exact H]. rewrite match_find in E. apply ok_or_ok in E. apply find_some in E as [I Q]. apply qualifies_iff in Q.
    destruct S as (N & A & B). split; [now apply sel_add_nodup|]. split.
    + intros q' Hq. apply in_app_or in Hq as [Hq|[<-|[]]].
      * destruct (A q' Hq) as (raws & c' & Hr & Hc & Hs). destruct (sel_add_keeps (cq_id q) (mc_raw c) s _ _ _ Hr Hc) as (l & L1 & L2).
        exists l, c'. auto.
      * destruct (sel_add_has (cq_id q) (mc_raw c) s) as (l & L1 & L2). exists l, c. auto.
    + intros id raws raw Hs Hr. apply sel_add_in in Hs as [Hs|(-> & [->|(l' & Hl & ->)])].
      * destruct (B _ _ _ Hs Hr) as (q' & c' & Hq & R). exists q', c'. split; [apply in_or_app; now left|exact R].
      * destruct Hr as [<-|[]]. exists q, c. split; [apply in_or_app; right; now left|auto].
      * apply in_app_or in Hr as [Hr|[<-|[]]].
        -- destruct (B _ _ _ Hl Hr) as (q' & c' & Hq & R). exists q', c'. split; [apply in_or_app; now left|exact R].
        -- exists q, c. split; [apply in_or_app; right; now left|auto].
Qed.
Lemma match_all_ok store qs : forall s,
  (exists sel, match_all lower store qs s = Ok sel) <-> forall q, In q qs -> exists c, In c store /\ satisfies lower q c.
Proof.
  induction qs as [|q qs IH]; intros s; cbn [match_all].
  - split; [intros _ q []|eauto].
  - rewrite match_find. split.
    + intros (sel & H). apply rbind_ok in H as (c & E & H). apply ok_or_ok, find_some in E as [I Q]. apply qualifies_iff in Q.
      intros q' [<-|Hq]; [eauto|]. eapply IH; [|exact Hq]. eauto.
    + intros H. destruct (H q (or_introl eq_refl)) as (c & I & Q). apply qualifies_iff in Q.
      destruct (find (qualifies q) store) as [c'|] eqn:F; [|now rewrite (find_none _ _ F c I) in Q].
      cbn [ok_or rbind]. apply IH. intros q' Hq. apply H. now right.
Qed.
End Match.

(** C67: every credential selected for a credential query has its format and meets its restriction; every
    credential query is covered; nothing is selected for anything else. *)
Lemma c67_sound_pf :
  forall (lower : string -> string) (store : list credential) (q : dcql) (sel : selection),
    match_query lower store q = Ok sel ->
    NoDup (map fst sel)
    /\ (forall cq, In cq (dq_credentials q) ->
          exists raws c, In (cq_id cq, raws) sel /\ In (mc_raw c) raws /\ In c store /\ satisfies lower cq c)
    /\ (forall id raws raw, In (id, raws) sel -> In raw raws ->
          exists cq c, In cq (dq_credentials q) /\ cq_id cq = id /\ In c store /\ mc_raw c = raw /\ satisfies lower cq c).
Proof.
  intros lower store q sel H. apply rbind_ok in H as (s & E & H). assert (s = sel) as -> by (destruct s; congruence).
  apply (match_all_sound lower store _ [] []) in E; [exact E|].
  split; [constructor|]. split; [intros ? []|intros ? ? ? []].
Qed.

(** C67: matching succeeds exactly when there is a credential query and each is met by some credential. *)
Lemma c67_complete_pf :
  forall (lower : string -> string) (store : list credential) (q : dcql),
    (exists sel, match_query lower store q = Ok sel) <->
    dq_credentials q <> [] /\ forall cq, In cq (dq_credentials q) -> exists c, In c store /\ satisfies lower cq c.
Proof.
  intros lower store q. unfold match_query. split.
  - intros (sel & H). apply rbind_ok in H as (s & E & H). split.
    + intros N. rewrite N in E. cbn in E. injection E as <-. discriminate.
    + eapply match_all_ok. eauto.
  - intros [N H]. apply (match_all_ok lower store _ []) in H as (sel & E). exists sel. rewrite E. cbn [rbind].
    destruct sel; [|reflexivity]. exfalso. destruct (dq_credentials q) as [|x l]; [easy|]. cbn [match_all] in E.
    apply rbind_ok in E as (c & _ & E). eapply match_all_nonempty in E; [easy|apply sel_add_nonempty].
Qed.

Definition pid : credential :=
  mk_credential "pid" DcSdJwt (Some "urn:pid") None "iss~disc~kb" [("given_name", JStr "John")].
Definition pid_query (id vct claim : string) : cred_query :=
  mk_cred id DcSdJwt [("vct_values", jstrs ["other"; vct])] (Some [claims_new [PeStr claim]]) None None None None.
Example c67_sound_ex :
  match_query (fun s => s) [pid] (dcql_new [pid_query "a" "urn:pid" "given_name"; pid_query "b" "urn:pid" "given_name"])
  = Ok [("a", ["iss~disc~kb"]); ("b", ["iss~disc~kb"])]
  /\ match_query (fun s => s) [pid] (dcql_new [pid_query "a" "urn:mdl" "given_name"]) = Err "no matching credential"
  /\ match_query (fun s => s) [pid] (dcql_new [mk_cred "a" DcSdJwt [] (Some [claims_new [PeStr "age"]]) None None None None]) = Err "no matching credential".
Proof. repeat split. Qed.

(** C67: the claims a query asks for are not looked at when it lists types: a credential without the claim is
    selected. *)
Lemma c67_claims_refuted_pf :
  exists (store : list credential) (cq : cred_query) (sel : selection) (n : string),
    match_query (fun s => s) store (dcql_new [cq]) = Ok sel /\ requires_claim cq n
    /\ sel <> [] /\ forall c, In c store -> forall v, ~ In (n, v) (mc_claims c).
Proof.
  exists [pid], (pid_query "a" "urn:pid" "age"). eexists. exists "age". split; [reflexivity|]. split.
  - exists [claims_new [PeStr "age"]], (claims_new [PeStr "age"]). repeat split; now left.
  - split; [easy|]. intros c [<-|[]] v [E|[]]. discriminate.
Qed.

(** C67: credential sets are not used: a query whose only set is satisfied by the credentials at hand is still
    refused. *)
Lemma c67_sets_refuted_pf :
  exists (store : list credential) (a b : cred_query) (e : string),
    match_query (fun s => s) store (mk_dcql [a; b] (Some [mk_set [[cq_id a]] (Some true)])) = Err e
    /\ cq_id a <> cq_id b /\ exists c, In c store /\ satisfies (fun s => s) a c.
Proof.
  exists [pid], (pid_query "a" "urn:pid" "age"), (pid_query "b" "urn:mdl" "age"). eexists. split; [reflexivity|]. split; [discriminate|].
  exists pid. split; [now left|]. apply qualifies_iff. reflexivity.
Qed.

(* ------------------------------------------------------------ C72 *)
Lemma split_all_nonempty c s : split_all c s <> [].
Proof. destruct s as [|d s]; cbn; [easy|]. destruct (Ascii.eqb c d); [easy|]. now destruct (split_all c s). Qed.
Lemma split_all_last c b a : has_char c b = false -> split_all c (a +:+ String c b) = split_all c a ++ [b].
Proof.
  intros Hb. induction a as [|d a IH].
  - cbn [split_all append]. rewrite Ascii.eqb_refl, (split_all_nochar c b Hb). reflexivity.
  - change (String d a +:+ String c b) with (String d (a +:+ String c b)). cbn [split_all]. rewrite IH.
    destruct (Ascii.eqb c d); [reflexivity|]. pose proof (split_all_nonempty c a). now destruct (split_all c a).
Qed.
Lemma join_split_all c s : join (s1 c) (split_all c s) = s.
Proof.
  induction s as [|d s IH]; [reflexivity|]. cbn [split_all]. pose proof (split_all_nonempty c s) as N.
  destruct (split_all c s) as [|p ps] eqn:E; [easy|].
  destruct (Ascii.eqb_spec c d) as [->|D]; [|destruct ps; cbn [join] in *; rewrite <- IH; reflexivity].
  change (join (s1 d) ("" :: p :: ps)) with (String d (join (s1 d) (p :: ps))). now rewrite IH.
Qed.



Lemma key_binding_bound sign now sd nonce aud : clock_ok now -> utf8_valid nonce = true -> utf8_valid aud = true ->
  key_bound sign now sd nonce aud (key_binding_jwt sign now sd nonce aud).
Proof.
  intros Hc Hn Ha. unfold key_binding_jwt.
  set (hj := JObj [("alg", JStr "ES256"); ("typ", JStr "kb+jwt")]).
  set (cl := [("aud", JStr aud); ("iat", JInt now); ("nonce", JStr nonce); ("sd_hash", JStr (sd_hash sd))]).
  exists (b64url_encode (jprint hj)), (b64url_encode (jprint (JObj cl))), (jprint hj), (jprint (JObj cl)),
    [("alg", JStr "ES256"); ("typ", JStr "kb+jwt")], cl.
  split; [reflexivity|]. split; [apply b64url_no_dot|]. split; [apply b64url_no_dot|].
  split; [apply b64_rt|]. split; [apply json_text_rt; [reflexivity|apply Nat.leb_le; reflexivity]|]. split.
  { split; [reflexivity|]. intros n. cbn [obj_get]. reflexivity. }
  split; [apply b64_rt|]. split.
  { apply json_text_rt; [|apply Nat.leb_le; reflexivity]. unfold jwf, cl. cbn [jtext_ok forallb fst snd].
    rewrite Hn, Ha, Hc. unfold sd_hash, b64url_encode. rewrite b64_utf8. reflexivity. }
  split; [reflexivity|]. intros n. unfold cl. cbn [obj_get].
  destruct (String.eqb_spec n "nonce") as [->|]; [reflexivity|]. destruct (String.eqb_spec n "aud") as [->|]; [reflexivity|].
  destruct (String.eqb n "iat"); [reflexivity|]. reflexivity.
Qed.
Lemma present_presented sign now nonce aud raw : clock_ok now -> utf8_valid nonce = true -> utf8_valid aud = true ->
  presented sign now nonce aud raw (present sign now nonce aud raw).
Proof.
  intros Hc Hn Ha. unfold present. destruct (rsplit_once "~" raw) as [[sd old]|] eqn:E.
  - apply rsplit_once_some in E as [-> Ho]. right. rewrite (split_all_last "~" old sd Ho).
    assert (L : Nat.leb 2 (length (split_all "~" sd ++ [old])) = true).
    { apply Nat.leb_le. rewrite app_length. cbn. pose proof (split_all_nonempty "~" sd). destruct (split_all "~" sd); [easy|cbn; lia]. }
    rewrite L, removelast_last. pose proof (join_split_all "~" sd) as J. change (s1 "~") with "~" in J. rewrite J.
    exists sd, old, (key_binding_jwt sign now (sd +:+ "~") nonce aud). split; [reflexivity|]. split; [exact Ho|].
    split; [now rewrite sapp_assoc|]. now apply key_binding_bound.
  - apply rsplit_once_none in E. left. split; [exact E|]. now rewrite (split_all_nochar _ _ E).
Qed.

Lemma token_of_selection (f : string -> vp_item) (s : selection) : NoDup (map fst s) ->
  fold_left (fun t e => vp_insert (fst e) (map f (snd e)) t) s vp_new = map (fun e => (fst e, map f (snd e))) s.
Proof.
  intros H. unfold vp_new.
  assert (A : forall s t, NoDup (map fst t ++ map fst s) ->
    fold_left (fun t e => vp_insert (fst e) (map f (snd e)) t) s t = t ++ map (fun e : string * list string => (fst e, map f (snd e))) s).
  { clear. induction s as [|[k l] s IH]; intros t H; cbn [fold_left map fst snd]; [now rewrite app_nil_r|].
    assert (I : vp_insert k (map f l) t = t ++ [(k, map f l)]).
    { clear IH. induction t as [|[k' l'] t IH]; [reflexivity|]. cbn [vp_insert app].
      destruct (String.eqb_spec k k') as [->|N].
      - exfalso. cbn in H. inversion H as [|? ? X _]. apply X, in_or_app. right. now left.
      - f_equal. apply IH. cbn in H. now inversion H. }
    rewrite I, IH; [now rewrite <- app_assoc|]. rewrite map_app, <- app_assoc. exact H. }
  now rewrite (A s []).
Qed.

(** C72: in the token of the example wallet every stored SD-JWT is presented with everything after its last '~'
    replaced by a key binding JWT over the rest, for exactly the nonce and audience given; other credentials
    are presented as they are; there is one entry per query id of the selection. *)
Lemma c72_key_binding_pf :
  forall (sign : string -> string) (now : Z) (sel : selection) (nonce audience : string),
    NoDup (map fst sel) -> clock_ok now -> utf8_valid nonce = true -> utf8_valid audience = true ->
    Forall2 (fun (e : string * list string) (t : string * list vp_item) =>
               fst e = fst t /\ Forall2 (presented sign now nonce audience) (snd e) (snd t))
      sel (build_vp_token sign now sel nonce audience).
Proof.
  intros sign now sel nonce aud Hd Hc Hn Ha. unfold build_vp_token. rewrite token_of_selection by exact Hd. clear Hd.
  induction sel as [|[k l] s IH]; cbn [map fst snd]; constructor; [|exact IH]. split; [reflexivity|]. cbn [snd].
  induction l as [|raw l IHl]; constructor; [now apply present_presented|exact IHl].
Qed.

Example c72_key_binding_ex :
  build_vp_token (fun m => "S") 5 [("a", ["iss~d~old"; "plain"])] "n" "v"
  = [("a", [VpString ("iss~d~" +:+ key_binding_jwt (fun m => "S") 5 "iss~d~" "n" "v"); VpString "plain"])]
  /\ clock_ok 5.
Proof. split; vm_compute; reflexivity. Qed.

(* ------------------------------------------------------------ C68, C73 - C75 *)
Section Handler.
Variable up : string -> option url.
Variable ssi : obj -> option bool.
Variable uri_ok : string -> bool.
Variable jwk_ok : obj -> bool.
Variable enc : obj -> obj -> obj -> res string.
Variable lower sign : string -> string.
Variable now : Z.
Variable http : http_client.
Variable endpoint : url.
Variable store : list credential.
Variable consent : bool.

Lemma resolve_accepted r a jwt : snd (resolve_request up ssi uri_ok http r) = Ok (a, jwt) -> accepted up (aro_to_obj a) a.
Proof.
  intros H. assert (X : exists o, aro_of_obj up o = Ok a).
  { destruct jwt as [jwt|].
    - apply resolve_jwt in H as [_ H]. apply rbind_ok in H as (o & _ & H). eauto.
    - destruct (ar_indirection r) as [j|u|o] eqn:E.
      + rewrite (resolve_value _ _ _ _ _ _ E) in H. cbn [snd] in H. apply rbind_ok in H as (? & _ & H). apply rbind_ok in H as (? & _ & H). discriminate.
      + rewrite (resolve_reference _ _ _ _ _ _ E) in H. destruct (uri_ok (url_str u)); [|discriminate]. cbn [snd] in H.
        apply rbind_ok in H as (? & _ & H). apply rbind_ok in H as (? & _ & H). apply rbind_ok in H as (? & _ & H).
        apply rbind_ok in H as (? & _ & H). apply rbind_ok in H as (? & _ & H). discriminate.
      + rewrite (resolve_direct _ _ _ _ _ _ E) in H. cbn [snd] in H. apply rbind_ok in H as (b & H & H'). injection H' as ->. eauto. }
  destruct X as (o & X). apply aro_of_inv in X. pose proof (acc_inner _ _ _ X) as I. unfold aro_to_obj. now rewrite I.
Qed.

Lemma posts_app a b : posts (a ++ b) = posts a ++ posts b.
Proof. unfold posts. induction a as [|x a IH]; [reflexivity|]. cbn [app filter]. destruct (String.eqb _ _); cbn [app]; now rewrite IH. Qed.
Lemma posts_resolve r : posts (http_events (fst (resolve_request up ssi uri_ok http r))) = [].
Proof.
  rewrite resolve_http. unfold get_events. destruct (ar_indirection r); try reflexivity. now destruct (uri_ok _).
Qed.
Lemma mbind_fst {E A B} (m : M E A) (f : A -> M E B) : fst (mbind m f) = fst m ++ match snd m with Ok a => fst (f a) | Err _ => [] end.
Proof. unfold mbind. destruct (snd m); cbn [fst]; [reflexivity|now rewrite app_nil_r]. Qed.
Lemma posts_deliver u body : posts (http_events (fst (deliver up http u body))) = [plain_post u body].
Proof.
  unfold deliver, send. rewrite !mbind_fst. cbn [fst snd emit lift app mbind]. destruct (http (plain_post u body)) as [rs|e]; [|reflexivity].
  cbn [fst snd]. rewrite lift_bind. destruct (of_bool _ _); [|reflexivity].
  destruct (match json_of_text _ with Some (JObj m) => _ | _ => None end) as [x|]; [|reflexivity].
  destruct (up x); reflexivity.
Qed.

(** The answer of the example wallet: which request it is for, what it contains and where it goes. *)
Inductive answer (p : params) (r : http_req) : aro -> vp_token -> option string -> Prop :=
| answer_plain ar a jwt sel aud st :
    from_url up (build_request_url endpoint p) endpoint = Ok ar -> snd (resolve_request up ssi uri_ok http ar) = Ok (a, jwt) ->
    process_request lower store consent a = Ok sel -> redirect_uri_bound a = true ->
    aud = match ro_client_id a with Some c => c | None => "unknown-verifier" end ->
    ro_mode a = DirectPost ->
    st = match aro_state a with Some (Ok s) => Some s | _ => pa_state p end ->
    r = plain_post (ro_return a) (unencoded_form (mk_unencoded (build_vp_token sign now sel (ro_nonce a) aud) st)) ->
    answer p r a (build_vp_token sign now sel (ro_nonce a) aud) st
| answer_jwt ar a jwt sel aud st jwe :
    from_url up (build_request_url endpoint p) endpoint = Ok ar -> snd (resolve_request up ssi uri_ok http ar) = Ok (a, jwt) ->
    process_request lower store consent a = Ok sel -> redirect_uri_bound a = true ->
    aud = match ro_client_id a with Some c => c | None => "unknown-verifier" end ->
    ro_mode a = DirectPostJwt ->
    st = match aro_state a with Some (Ok s) => Some s | _ => pa_state p end ->
    encrypted_answer jwk_ok enc a (build_vp_token sign now sel (ro_nonce a) aud) st = Ok jwe ->
    r = plain_post (ro_return a) (form_serialize [("response", jwe)]) ->
    answer p r a (build_vp_token sign now sel (ro_nonce a) aud) st.

Lemma authorize_posts p :
  posts (http_events (fst (authorize up ssi uri_ok jwk_ok enc lower sign now http endpoint store consent p))) = []
  \/ exists r a vp st, answer p r a vp st
     /\ posts (http_events (fst (authorize up ssi uri_ok jwk_ok enc lower sign now http endpoint store consent p))) = [r].
Proof.
  unfold authorize. rewrite lift_bind. destruct (from_url up (build_request_url endpoint p) endpoint) as [ar|e] eqn:Ef; [|now left].
  rewrite mbind_fst, http_app, posts_app, posts_resolve. cbn [app].
  destruct (snd (resolve_request up ssi uri_ok http ar)) as [[a jwt]|e] eqn:Er; [|now left].
  rewrite lift_bind. destruct (match aro_dcql a with Some r => _ | None => _ end) as [q|e] eqn:Eq; [|now left].
  rewrite lift_bind. destruct (process_request lower store consent a) as [sel|e] eqn:Es; [|now left].
  rewrite lift_bind. destruct (redirect_uri_bound a) eqn:Eb; [|now left]. cbn [of_bool].
  destruct (ro_mode a) eqn:Em; try now left.
  - right. eexists. exists a. eexists. eexists. split; [|apply posts_deliver]. eapply answer_plain; try eassumption; reflexivity.
  - rewrite lift_bind. destruct (encrypted_answer _ _ _ _ _) as [jwe|e] eqn:Ej; [|now left].
    right. eexists. exists a. eexists. eexists. split; [|apply posts_deliver]. eapply answer_jwt; try eassumption; reflexivity.
Qed.
End Handler.

Lemma bound_iff a uri : redirect_uri_bound a = true ->
  ro_client_id a = Some ("redirect_uri:" +:+ uri) -> url_str (ro_return a) = uri.
Proof.
  intros H E. unfold redirect_uri_bound in H. rewrite E in H.
  assert (S : strip_prefix "redirect_uri:" ("redirect_uri:" +:+ uri) = Some uri) by now apply strip_prefix_some.
  rewrite S in H. now apply String.eqb_eq in H.
Qed.

(** C68: the example wallet POSTs at most once per request, to the response_uri of the request object; when the
    client_id of the object is a redirect_uri identifier, to exactly the URI it contains. *)
Lemma c68_bound_pf :
  forall (url_parse : string -> option url) (ssi_header : obj -> option bool) (uri_ok : string -> bool)
    (jwk_ok : obj -> bool) (jwe_encrypt : obj -> obj -> obj -> res string) (lower sign : string -> string) (now : Z)
    (http : http_client) (endpoint : url) (store : list credential) (auto_consent : bool) (p : params),
    let run := authorize url_parse ssi_header uri_ok jwk_ok jwe_encrypt lower sign now http endpoint store auto_consent p in
    posts (http_events (fst run)) = []
    \/ exists r ar a jwt s u,
         posts (http_events (fst run)) = [r]
         /\ from_url url_parse (build_request_url endpoint p) endpoint = Ok ar
         /\ snd (resolve_request url_parse ssi_header uri_ok http ar) = Ok (a, jwt)
         /\ text_at "response_uri" (aro_to_obj a) s /\ url_parse s = Some u /\ rq_uri r = url_str u
         /\ forall uri, text_at "client_id" (aro_to_obj a) ("redirect_uri:" +:+ uri) -> rq_uri r = uri.
Proof.
  intros up ssi uok jok enc lower sign now http ep store consent p run.
  destruct (authorize_posts up ssi uok jok enc lower sign now http ep store consent p) as [H|(r & a & vp & st & A & H)]; [now left|].
  right. exists r.
  assert (X : exists ar jwt, from_url up (build_request_url ep p) ep = Ok ar /\ snd (resolve_request up ssi uok http ar) = Ok (a, jwt)
     /\ redirect_uri_bound a = true /\ (ro_mode a = DirectPost \/ ro_mode a = DirectPostJwt) /\ rq_uri r = url_str (ro_return a)).
  { destruct A; subst r; eexists; eexists; repeat split; try eassumption; auto. }
  destruct X as (ar & jwt & Ef & Er & Eb & Em & Eu). pose proof (resolve_accepted _ _ _ _ _ _ _ Er) as Ac.
  assert (R : exists s, text_at "response_uri" (aro_to_obj a) s /\ up s = Some (ro_return a)).
  { apply c07_return_uri_pf; [now apply aro_of_inv|exact Em]. }
  destruct R as (s & Hs & Hu). exists ar, a, jwt, s, (ro_return a).
  split; [exact H|]. do 5 (split; [assumption|]). intros uri C. rewrite Eu. apply bound_iff; [exact Eb|].
  pose proof (acc_client _ _ _ Ac) as K. destruct (ro_client_id a) as [c|]; unfold text_at, absent in *; congruence.
Qed.

(** C68: it never reports success without having POSTed. *)
Lemma c68_success_pf :
  forall (url_parse : string -> option url) (ssi_header : obj -> option bool) (uri_ok : string -> bool)
    (jwk_ok : obj -> bool) (jwe_encrypt : obj -> obj -> obj -> res string) (lower sign : string -> string) (now : Z)
    (http : http_client) (endpoint : url) (store : list credential) (auto_consent : bool) (p : params) (x : option string),
    let run := authorize url_parse ssi_header uri_ok jwk_ok jwe_encrypt lower sign now http endpoint store auto_consent p in
    snd run = Ok x ->
    auto_consent = true
    /\ exists r rs, posts (http_events (fst run)) = [r] /\ http r = Ok rs /\ (200 <= rs_status rs < 300)%N.
Proof.
  intros up ssi uok jok enc lower sign now http ep store consent p x run.
  assert (D : forall u body (y : option string), snd (deliver up http u body) = Ok y ->
     exists rs, http (plain_post u body) = Ok rs /\ (200 <= rs_status rs < 300)%N).
  { intros u body y H. unfold deliver, send in H. apply mbind_ok in H as (rs & H1 & H). apply mbind_ok in H1 as (? & _ & H1).
    apply mbind_ok in H as (? & H2 & _). exists rs. split; [exact H1|]. unfold lift in H2. cbn [snd] in H2.
    destruct (is_success (rs_status rs)) eqn:S; [|discriminate]. unfold is_success in S. apply andb_true_iff in S as [S1 S2].
    apply N.leb_le in S1. apply N.ltb_lt in S2. auto. }
  unfold run, authorize. rewrite lift_bind. destruct (from_url up (build_request_url ep p) ep) as [ar|]; [|discriminate].
  intros H. rewrite mbind_fst, http_app, posts_app, posts_resolve. apply mbind_ok in H as ([a jwt] & Er & H). rewrite Er. cbn [app].
  rewrite lift_bind in H |- *. destruct (match aro_dcql a with Some r => _ | None => _ end) as [q|]; [|discriminate].
  rewrite lift_bind in H |- *. destruct (process_request lower store consent a) as [sel|] eqn:Es; [|discriminate].
  assert (C : consent = true) by (unfold process_request in Es; destruct consent; [reflexivity|discriminate]).
  split; [exact C|].
  rewrite lift_bind in H |- *. destruct (redirect_uri_bound a); [|discriminate]. cbn [of_bool] in H |- *.
  destruct (ro_mode a); try discriminate.
  - destruct (D _ _ _ H) as (rs & R). eexists. exists rs. split; [apply posts_deliver|exact R].
  - rewrite lift_bind in H |- *. destruct (encrypted_answer _ _ _ _ _) as [jwe|]; [|discriminate].
    destruct (D _ _ _ H) as (rs & R). eexists. exists rs. split; [apply posts_deliver|exact R].
Qed.

Definition ex_endpoint : url := mk_url "https" (Some "wallet.example") "/authorize" false None None.
Definition ex_object (cid : string) : obj :=
  obj_insert "client_id" (JStr cid) (obj_insert "dcql_query" (dcql_to_json (dcql_new [pid_query "a" "urn:pid" "given_name"])) sample_request).
Definition ex_params (outer : option string) (o : obj) : params :=
  mk_params outer (Some (jwt_of typ_ok o)) None None None None None None None.
Definition ex_run (outer : option string) (o : obj) : M wevent (option string) :=
  authorize simple_parse any_header (fun _ => true) (fun _ => true) (fun h c k => Ok (jprint (JArr [JObj h; JObj c])))
    (fun s => s) (fun _ => "S") 5 (serve 200 "{}") ex_endpoint [pid] true (ex_params outer o).
Definition ex_posted (outer : option string) (o : obj) : list string := map rq_uri (posts (http_events (fst (ex_run outer o)))).
Example c68_bound_ex :
  ex_posted (Some "redirect_uri:https://v.example/resp") (ex_object "redirect_uri:https://v.example/resp") = ["https://v.example/resp"]
  /\ ex_posted (Some "redirect_uri:https://e.example/") (ex_object "redirect_uri:https://e.example/") = []
  /\ snd (ex_run (Some "redirect_uri:https://e.example/") (ex_object "redirect_uri:https://e.example/")) = Err "response_uri must match client_id"
  /\ snd (ex_run (Some "redirect_uri:https://v.example/resp") (ex_object "redirect_uri:https://v.example/resp")) = Ok None.
Proof. repeat split; vm_compute; reflexivity. Qed.
Example c68_success_ex :
  snd (ex_run (Some "redirect_uri:https://v.example/resp") (ex_object "redirect_uri:https://v.example/resp")) = Ok None.
Proof. apply c68_bound_ex. Qed.

(** C68: nothing of the kind holds for the other prefixes: a request naming an x509_san_dns client, with an
    outer client_id of somebody else, is answered whatever its signature. *)
Lemma c68_unverified_refuted_pf :
  exists (outer inner uri : string) (o : obj),
    text_at "client_id" o inner /\ inner = "x509_san_dns:bank.example" /\ outer <> inner
    /\ ex_posted (Some outer) o = [uri] /\ snd (ex_run (Some outer) o) = Ok None.
Proof.
  exists "x509_san_dns:e.example", "x509_san_dns:bank.example", "https://v.example/resp", (ex_object "x509_san_dns:bank.example").
  split; [vm_compute; reflexivity|]. split; [reflexivity|]. split; [discriminate|]. split; vm_compute; reflexivity.
Qed.

(* ------------------------------------------------------------ C73 *)
(** C73: the encrypted answer of the example wallet: to the first usable key of the client's metadata, holding
    exactly the token and the state, always with A128GCM. *)
Lemma c73_encryption_pf :
  forall (jwk_ok : obj -> bool) (jwe_encrypt : obj -> obj -> obj -> res string)
         (a : aro) (vp : vp_token) (st : option string) (jwe : string),
    parsed_key (aro_to_obj a) -> NoDup (map fst vp) ->
    (encrypted_answer jwk_ok jwe_encrypt a vp st = Ok jwe <->
     exists cm keys key kid header claims,
       obj_get "client_metadata" (aro_to_obj a) = Some (JObj cm) /\ client_keys cm keys
       /\ first_key keys key /\ jwk_ok key = true /\ maybe_text "kid" key kid
       /\ object_is header (jwe_members "A128GCM" kid) /\ claims_of claims vp st
       /\ jwe_encrypt header claims key = Ok jwe).
Proof.
  intros jok enc a vp st jwe Pa Hn. unfold encrypted_answer, verifier_key.
  assert (PE : forall cm keys, parsing_error (cm_jwks cm) = Ok keys <-> client_keys cm keys).
  { intros cm keys. rewrite <- keys_get. unfold cm_jwks, parsing_error. destruct (uo_get p_jwks cm) as [[x|e]|]; cbn; split; congruence. }
  assert (CM : forall cm, aro_client_metadata a = Ok cm <-> obj_get "client_metadata" (aro_to_obj a) = Some (JObj cm)).
  { intros cm. unfold aro_client_metadata, aro_get, uo_get, aro_to_obj. cbn [tp_key tp_of p_client_metadata].
    destruct (obj_get "client_metadata" (ro_inner a)) as [v|]; [|split; discriminate]. destruct v; cbn; split; congruence. }
  assert (CC : forall cm, obj_get "client_metadata" (aro_to_obj a) = Some (JObj cm) -> client_metadata (aro_to_obj a) cm).
  { intros cm E. unfold client_metadata. now rewrite E. }
  assert (B : forall key kid, parsed_key key -> jok key = true -> maybe_text "kid" key kid ->
     (let b := jb_set_alg "ECDH-ES" (jb_set_payload (JObj (response_payload vp st)) jb_new) in
      let b := match kid with Some k => jb_set_kid k b | None => b end in
      let? b := jb_set_key_json jok (JObj key) b in jwe_build enc b)
     = enc (jwe_header "ECDH-ES" "A128GCM" kid) (response_payload vp st) key).
  { intros key kid Pk J M. apply maybe_iff in M. unfold jb_set_key_json. rewrite (parsed_jwk jok key Pk), J. cbn [rbind].
    pose proof (proj2 (claims_iff _) (payload_types vp st)) as T. unfold jwe_build.
    destruct kid as [k|]; cbn [jb_payload jb_key jb_alg jb_enc jb_kid jb_set_kid jb_set_enc jb_set_alg jb_set_key jb_set_payload jb_new ok_or rbind];
      change (String.eqb "ECDH-ES" "ECDH-ES") with true; cbn [of_bool rbind]; rewrite T; cbn [of_bool rbind]; [reflexivity|].
    now rewrite M. }
  cbv zeta in B. split.
  - intros H. apply rbind_ok in H as ([key alg kid] & Ev & H). apply rbind_ok in Ev as (cm & Ec & Ev). apply rbind_ok in Ev as (keys & Ek & Ef).
    apply CM in Ec. apply PE in Ek. pose proof (parsed_keys _ _ _ Pa (CC _ Ec) Ek) as Pk.
    apply (c47_selection_pf jok keys Pk) in Ef as (Hf & J & -> & M).
    assert (Pkey : parsed_key key) by (destruct Hf as (x & y & -> & _); apply Forall_app in Pk as [_ Pk]; now inversion Pk).
    cbn [ki_jwk ki_alg ki_kid] in H. rewrite (B key kid Pkey J M) in H.
    exists cm, keys, key, kid, (jwe_header "ECDH-ES" "A128GCM" kid), (response_payload vp st).
    do 5 (split; [assumption|]). split; [apply jwe_header_is|]. split; [now apply payload_is|exact H].
  - intros (cm & keys & key & kid & h & claims & Ec & Ek & Hf & J & M & Hh & Hc & Ej).
    pose proof (parsed_keys _ _ _ Pa (CC _ Ec) Ek) as Pk.
    assert (Pkey : parsed_key key) by (destruct Hf as (x & y & -> & _); apply Forall_app in Pk as [_ Pk']; now inversion Pk').
    apply CM in Ec. rewrite Ec. cbn [rbind]. apply PE in Ek. rewrite Ek. cbn [rbind].
    assert (Ef : find_encryption_jwk jok keys = Ok (mk_ki key "ECDH-ES" kid)) by (apply c47_selection_pf; auto).
    rewrite Ef. cbn [rbind ki_jwk ki_alg ki_kid]. rewrite (B key kid Pkey J M).
    now rewrite (object_is_unique _ _ _ (jwe_header_is _ kid) Hh), (claims_unique _ _ _ _ (payload_is vp st Hn) Hc).
Qed.

Definition ex_encrypted (extra : obj) : res string :=
  let? a := aro_of_obj simple_parse (enc_request extra [key_p256 "enc" "2"]) in
  encrypted_answer (fun _ => true) (fun h c k => Ok (jprint (JArr [JObj h; JObj c]))) a [("a", [VpString "x"])] (Some "s").
Example c73_encryption_ex :
  parsed_key (enc_request [] [key_p256 "enc" "2"])
  /\ ex_encrypted [] = Ok "[{""alg"":""ECDH-ES"",""enc"":""A128GCM"",""kid"":""2"",""typ"":""JWT""},{""state"":""s"",""vp_token"":{""a"":[""x""]}}]".
Proof. split; [split; [vm_compute; reflexivity|apply Nat.leb_le; vm_compute; reflexivity]|vm_compute; reflexivity]. Qed.

(** C73: so a client whose metadata lists A256GCM alone gets an answer in A128GCM, which it did not offer. *)
Lemma c73_unlisted_refuted_pf :
  exists (a : aro) (cm header claims key : obj) (vp : vp_token),
    client_metadata (aro_to_obj a) cm /\ client_encs cm ["A256GCM"]
    /\ text_at "enc" header "A128GCM"
    /\ encrypted_answer (fun _ => true) (fun h c k => Ok (jprint (JArr [JObj h; JObj c; JObj k]))) a vp None
       = Ok (jprint (JArr [JObj header; JObj claims; JObj key])).
Proof.
  set (extra := [("encrypted_response_enc_values_supported", jstrs ["A256GCM"])]).
  set (o := enc_request extra [key_p256 "enc" "2"]).
  destruct (aro_of_obj simple_parse o) as [a|] eqn:E; [|vm_compute in E; discriminate].
  exists a. vm_compute in E. injection E as <-.
  exists (obj_insert "jwks" (JObj [("keys", JArr [JObj (key_p256 "enc" "2")])]) extra),
    (jwe_header "ECDH-ES" "A128GCM" (Some "2")), (response_payload [("a", [VpString "x"])] None), (key_p256 "enc" "2"), [("a", [VpString "x"])].
  repeat split; vm_compute; reflexivity.
Qed.

(* ------------------------------------------------------------ C75 *)
Lemma from_url_query up u ep ar : from_url up u ep = Ok ar -> exists q, u_query u = Some q /\ from_query_params up q = Ok ar.
Proof.
  unfold from_url. intros H. apply rbind_ok in H as (q & E & H). apply ok_or_ok in E. apply rbind_ok in H as (? & _ & H).
  apply rbind_ok in H as (? & _ & H). eauto.
Qed.

Lemma mbind_err {E A B} (m : M E A) (f : A -> M E B) e : snd m = Err e -> mbind m f = (fst m, Err e).
Proof. intros H. unfold mbind. now rewrite H. Qed.
Lemma mbind_nil {E A B} (m : M E A) (f : A -> M E B) a : fst m = [] -> snd m = Ok a -> mbind m f = f a.
Proof. intros F H. unfold mbind. rewrite F, H. now destruct (f a). Qed.

(** C75: a request given directly by its parameters is never answered by the example wallet: it ends in an error
    without any HTTP traffic. *)
Lemma c75_direct_pf :
  forall (url_parse : string -> option url) (ssi_header : obj -> option bool) (uri_ok : string -> bool)
    (jwk_ok : obj -> bool) (jwe_encrypt : obj -> obj -> obj -> res string) (lower sign : string -> string) (now : Z)
    (http : http_client) (endpoint : url) (store : list credential) (auto_consent : bool) (p : params)
    (ar : auth_request) (o : obj),
    from_url url_parse (build_request_url endpoint p) endpoint = Ok ar -> ar_indirection ar = Direct o ->
    let run := authorize url_parse ssi_header uri_ok jwk_ok jwe_encrypt lower sign now http endpoint store auto_consent p in
    fst run = [] /\ forall x, snd run <> Ok x.
Proof.
  intros up ssi uok jok enc lower sign now http ep store consent p ar o Ef Ei run. unfold run, authorize.
  rewrite lift_bind, Ef. destruct (from_url_query _ _ _ _ Ef) as (q & _ & Eq).
  destruct (c69_direct_text_pf up ssi uok (mk_wallet (mk_wm [] ep []) http (fun _ _ _ => Ok tt)) q ar o Eq Ei) as [N _].
  cbn [w_http] in N. assert (F : fst (resolve_request up ssi uok http ar) = []) by now rewrite (resolve_direct _ _ _ _ _ _ Ei).
  destruct (snd (resolve_request up ssi uok http ar)) as [[a jwt]|e] eqn:Er.
  2:{ rewrite (mbind_err _ _ _ Er), F. split; [reflexivity|intros ? X; discriminate X]. }
  rewrite (mbind_nil _ _ _ F Er). destruct (N _ _ eq_refl) as [D _]. cbn iota beta. rewrite lift_bind.
  destruct (aro_dcql a) as [[d|e]|] eqn:Ed; [now destruct (D d)| |]; cbn [context]; (split; [reflexivity|intros ? X; discriminate X]).
Qed.

(** C75: in particular whenever neither request nor request_uri is given to an endpoint without a query. *)
Lemma c75_no_request_pf :
  forall (url_parse : string -> option url) (ssi_header : obj -> option bool) (uri_ok : string -> bool)
    (jwk_ok : obj -> bool) (jwe_encrypt : obj -> obj -> obj -> res string) (lower sign : string -> string) (now : Z)
    (http : http_client) (endpoint : url) (store : list credential) (auto_consent : bool) (p : params),
    u_query endpoint = None -> pa_request p = None -> pa_request_uri p = None ->
    (forall k v, In (k, v) (param_pairs p) -> utf8_valid v = true) ->
    let run := authorize url_parse ssi_header uri_ok jwk_ok jwe_encrypt lower sign now http endpoint store auto_consent p in
    fst run = [] /\ forall x, snd run <> Ok x.
Proof.
  intros up ssi uok jok enc lower sign now http ep store consent p Hq H1 H2 Hv run.
  destruct (from_url up (build_request_url ep p) ep) as [ar|e] eqn:Ef.
  2:{ unfold run, authorize. rewrite lift_bind, Ef. split; [reflexivity|intros ? X; cbn in X; discriminate X]. }
  assert (K : forall k v, In (k, v) (param_pairs p) -> utf8_valid k = true /\ k <> "request" /\ k <> "request_uri").
  { intros k v. unfold param_pairs. rewrite H1, H2. destruct p; cbn.
    repeat match goal with |- context [match ?x with Some _ => _ | None => _ end] => destruct x; cbn end; clear;
      intros H; repeat (destruct H as [H|H]; [injection H as <- <-; repeat split; discriminate|]); destruct H. }
  assert (D : exists o, ar_indirection ar = Direct o).
  { destruct (from_url_query _ _ _ _ Ef) as (q & Eq & Ep). unfold build_request_url in Eq. rewrite Hq in Eq. cbn [set_query u_query] in Eq.
    injection Eq as <-. unfold from_query_params in Ep. rewrite form_parse_serialize in Ep.
    - apply from_pairs_spec in Ep as [_ Ep]. destruct (ar_indirection ar) as [j|u|o]; [| |eauto]; exfalso.
      + apply single_in in Ep. apply in_map_iff in Ep as ([k v] & E & I). cbn [fst] in E. subst. now apply K in I.
      + destruct Ep as (_ & s & S & _). apply single_in in S. apply in_map_iff in S as ([k v] & E & I). cbn [fst] in E. subst. now apply K in I.
    - apply Forall_forall. intros [k v] I. cbn [fst snd]. split; [now apply K in I|now apply Hv in I]. }
  destruct D as (o & D). now apply (c75_direct_pf _ _ _ _ _ _ _ _ _ _ _ _ _ _ _ Ef D).
Qed.

Definition ex_direct : params :=
  mk_params (Some "redirect_uri:https://v.example/resp") None None (Some "vp_token") (Some "n") None (Some "direct_post")
    (Some "https://v.example/resp") (Some "{""credentials"":[{""id"":""a"",""format"":""dc+sd-jwt"",""meta"":{}}]}").
Example c75_direct_ex :
  is_ok (from_url simple_parse (build_request_url ex_endpoint ex_direct) ex_endpoint) = true
  /\ snd (authorize simple_parse any_header (fun _ => true) (fun _ => true) (fun h c k => Err "") (fun s => s) (fun _ => "S") 5
            (serve 200 "{}") ex_endpoint [pid] true ex_direct) = Err "Invalid dcql_query"
  /\ forallb (fun kv => utf8_valid (snd kv)) (param_pairs ex_direct) = true.
Proof. repeat split; vm_compute; reflexivity. Qed.
Example c75_no_request_ex :
  let p := mk_params (Some "x509_san_dns:v.example") None None (Some "vp_token") None None None (Some "n") None in
  u_query ex_endpoint = None /\ forallb (fun kv => utf8_valid (snd kv)) (param_pairs p) = true /\ param_pairs p <> [].
Proof. vm_compute. repeat split. discriminate. Qed.

(* ------------------------------------------------------------ C74 *)
Lemma text_member o k s : jwf (JObj o) = true -> text_at k o s -> utf8_valid s = true.
Proof.
  unfold jwf, text_at. rewrite andb_true_iff. intros [H _] G. cbn [jtext_ok] in H. rewrite forallb_forall in H.
  apply obj_get_in in G. apply H in G. cbn [fst snd] in G. apply andb_true_iff in G as [_ G]. exact G.
Qed.
Lemma decoded_wf ssi jwt o : decode_unverified ssi jwt = Ok o -> parsed_key o.
Proof.
  unfold decode_unverified. intros H. apply rbind_ok in H as ([h pl] & _ & H). unfold map_of_text in H.
  destruct (json_of_text pl) as [j|] eqn:E; [|discriminate]. destruct j; try discriminate. injection H as <-.
  exact (json_of_text_wf _ _ E).
Qed.
Lemma forall2_in_r {A B} (R : A -> B -> Prop) l r y : Forall2 R l r -> In y r -> exists x, In x l /\ R x y.
Proof. induction 1 as [|a b l r H F IH]; [easy|]. intros [->|I]; [exists a; split; [now left|exact H]|]. destruct (IH I) as (x & X & Y). exists x. split; [now right|exact Y]. Qed.
Lemma forall2_in_l {A B} (R : A -> B -> Prop) l r x : Forall2 R l r -> In x l -> exists y, In y r /\ R x y.
Proof. induction 1 as [|a b l r H F IH]; [easy|]. intros [->|I]; [exists b; split; [now left|exact H]|]. destruct (IH I) as (y & X & Y). exists y. split; [now right|exact Y]. Qed.

(** C74: what the example wallet POSTs: a token whose presentations are all made, for the nonce and the client of
    the request, from stored credentials that satisfy the credential query they are filed under; every credential
    query is answered; the state is the request's, else the one of the parameters. It is sent as a form, in
    direct_post.jwt encrypted. *)
Lemma c74_contents_pf :
  forall (url_parse : string -> option url) (ssi_header : obj -> option bool) (uri_ok : string -> bool)
    (jwk_ok : obj -> bool) (jwe_encrypt : obj -> obj -> obj -> res string) (lower sign : string -> string) (now : Z)
    (http : http_client) (endpoint : url) (store : list credential) (auto_consent : bool) (p : params) (r : http_req),
    let run := authorize url_parse ssi_header uri_ok jwk_ok jwe_encrypt lower sign now http endpoint store auto_consent p in
    clock_ok now -> In r (posts (http_events (fst run))) ->
    exists ar a jwt q vp st nonce aud,
      from_url url_parse (build_request_url endpoint p) endpoint = Ok ar
      /\ snd (resolve_request url_parse ssi_header uri_ok http ar) = Ok (a, Some jwt)
      /\ aro_dcql a = Some (Ok q)
      /\ text_at "nonce" (aro_to_obj a) nonce /\ audience_of (aro_to_obj a) aud
      /\ NoDup (map fst vp)
      /\ (forall id items i, In (id, items) vp -> In i items ->
            exists cq c, In cq (dq_credentials q) /\ cq_id cq = id /\ In c store /\ satisfies lower cq c
              /\ presented sign now nonce aud (mc_raw c) i)
      /\ (forall cq, In cq (dq_credentials q) ->
            exists items i c, In (cq_id cq, items) vp /\ In i items /\ In c store /\ satisfies lower cq c
              /\ presented sign now nonce aud (mc_raw c) i)
      /\ (forall s, text_at "state" (aro_to_obj a) s -> st = Some s)
      /\ ((forall s, ~ text_at "state" (aro_to_obj a) s) -> st = pa_state p)
      /\ (ro_mode a = DirectPost /\ rq_body r = unencoded_form (mk_unencoded vp st)
          \/ ro_mode a = DirectPostJwt
             /\ exists header claims key jwe, claims_of claims vp st /\ jwe_encrypt header claims key = Ok jwe
                /\ rq_body r = form_serialize [("response", jwe)]).
Proof.
  intros up ssi uok jok enc lower sign now http ep store consent p r run Hc Hr.
  destruct (authorize_posts up ssi uok jok enc lower sign now http ep store consent p) as [H|(r' & a & vp & st & A & H)].
  { unfold run in Hr. rewrite H in Hr. destruct Hr. }
  unfold run in Hr. rewrite H in Hr. destruct Hr as [->|[]].
  assert (X : exists ar jwt sel aud, from_url up (build_request_url ep p) ep = Ok ar /\ snd (resolve_request up ssi uok http ar) = Ok (a, jwt)
     /\ process_request lower store consent a = Ok sel /\ aud = match ro_client_id a with Some c => c | None => "unknown-verifier" end
     /\ st = match aro_state a with Some (Ok s) => Some s | _ => pa_state p end
     /\ vp = build_vp_token sign now sel (ro_nonce a) aud
     /\ (ro_mode a = DirectPost /\ rq_body r = unencoded_form (mk_unencoded vp st)
         \/ ro_mode a = DirectPostJwt /\ exists jwe, encrypted_answer jok enc a vp st = Ok jwe /\ rq_body r = form_serialize [("response", jwe)])).
  { destruct A as [ar a jwt sel aud st Ef Er Es Eb Ea Em Et Eq|ar a jwt sel aud st jwe Ef Er Es Eb Ea Em Et Ej Eq]; subst r;
      exists ar, jwt, sel, aud; repeat (split; [assumption||reflexivity|]); [left|right]; (split; [exact Em|]); [reflexivity|].
    exists jwe. split; [exact Ej|reflexivity]. }
  clear A H. destruct X as (ar & jwt & sel & aud & Ef & Er & Es & Ea & Et & Ev & Eo).
  pose proof (resolve_accepted _ _ _ _ _ _ _ Er) as Ac.
  unfold process_request in Es. apply rbind_ok in Es as (? & _ & Es). apply rbind_ok in Es as (q & Eq & Es).
  destruct (aro_dcql a) as [[q'|e]|] eqn:Ed; try discriminate. cbn [context] in Eq. injection Eq as ->.
  assert (J : exists j, jwt = Some j).
  { destruct jwt as [j|]; [eauto|]. exfalso. destruct (ar_indirection ar) as [j|u|o] eqn:E.
    - rewrite (resolve_value _ _ _ _ _ _ E) in Er. cbn [snd] in Er. apply rbind_ok in Er as (? & _ & Er). apply rbind_ok in Er as (? & _ & Er). discriminate.
    - rewrite (resolve_reference _ _ _ _ _ _ E) in Er. destruct (uok (url_str u)); [|discriminate]. cbn [snd] in Er.
      do 5 (apply rbind_ok in Er as (? & _ & Er)). discriminate.
    - destruct (from_url_query _ _ _ _ Ef) as (qs & _ & Eqs).
      destruct (c69_direct_text_pf up ssi uok (mk_wallet (mk_wm [] ep []) http (fun _ _ _ => Ok tt)) qs ar o Eqs E) as [N _].
      destruct (N a None Er) as [D _]. now apply (D q). }
  destruct J as (j & ->).
  assert (W : parsed_key (aro_to_obj a)).
  { apply resolve_jwt in Er as [_ Er]. apply rbind_ok in Er as (o & Eo' & Er). apply aro_of_inv in Er.
    unfold aro_to_obj. rewrite (acc_inner _ _ _ Er). exact (decoded_wf _ _ _ Eo'). }
  pose proof (acc_nonce _ _ _ Ac) as Hn. pose proof (text_member _ _ _ (proj1 W) Hn) as Un.
  assert (Au : audience_of (aro_to_obj a) aud /\ utf8_valid aud = true).
  { pose proof (acc_client _ _ _ Ac) as K. rewrite Ea. destruct (ro_client_id a) as [c|]; unfold audience_of.
    - split; [now left|exact (text_member _ _ _ (proj1 W) K)].
    - split; [now right|reflexivity]. }
  destruct Au as [Au Uu]. destruct (c67_sound_pf _ _ _ _ Es) as (Nd & Cov & Snd).
  pose proof (c72_key_binding_pf sign now sel (ro_nonce a) aud Nd Hc Un Uu) as F. rewrite <- Ev in F.
  assert (Nv : NoDup (map fst vp)).
  { assert (E : map fst sel = map fst vp) by (clear - F; induction F as [|x y l l' [E _] F IH]; cbn; [reflexivity|now rewrite E, IH]). now rewrite <- E. }
  exists ar, a, j, q, vp, st, (ro_nonce a), aud. do 6 (split; [assumption|]). split; [|split; [|split; [|split]]].
  - intros id items i Hi Hii. destruct (forall2_in_r _ _ _ _ F Hi) as ([k raws] & Hs & E & G). cbn [fst snd] in E, G. subst k.
    destruct (forall2_in_r _ _ _ _ G Hii) as (raw & Hraw & P). destruct (Snd _ _ _ Hs Hraw) as (cq & c & ? & ? & ? & <- & ?).
    exists cq, c. auto.
  - intros cq Hcq. destruct (Cov cq Hcq) as (raws & c & Hs & Hraw & Hst & Sat).
    destruct (forall2_in_l _ _ _ _ F Hs) as ([k items] & Hv & E & G). cbn [fst snd] in E, G. subst k.
    destruct (forall2_in_l _ _ _ _ G Hraw) as (i & Hi & P). exists items, i, c. auto.
  - intros s T. rewrite Et. unfold aro_state, aro_get, uo_get, aro_to_obj, text_at in *. cbn [tp_key tp_of p_state p_string]. now rewrite T.
  - intros N. rewrite Et. unfold aro_state, aro_get, uo_get, aro_to_obj, text_at in *. cbn [tp_key tp_of p_state p_string].
    destruct (obj_get "state" (ro_inner a)) as [v|]; [|reflexivity]. destruct v; try reflexivity. now destruct (N s).
  - destruct Eo as [Eo|(Em & jwe & Ej & Eb)]; [now left|]. right. split; [exact Em|].
    apply c73_encryption_pf in Ej as (cm & keys & key & kid & h & cl & _ & _ & _ & _ & _ & _ & Hcl & Ej); [|exact W|exact Nv].
    exists h, cl, key, jwe. auto.
Qed.

Example c74_contents_ex :
  map rq_body (posts (http_events (fst (ex_run None (obj_insert "state" (JStr "s") (ex_object "x509_san_dns:v.example"))))))
  = [unencoded_form (mk_unencoded [("a", [VpString ("iss~disc~" +:+ key_binding_jwt (fun _ => "S") 5 "iss~disc~" "n1" "x509_san_dns:v.example")])] (Some "s"))].
Proof. vm_compute. reflexivity. Qed.

(** C74: without the consent of its user, the example wallet answers no request: it POSTs nothing, to anyone, and
    reports no success. *)
Lemma c74_consent_pf :
  forall (url_parse : string -> option url) (ssi_header : obj -> option bool) (uri_ok : string -> bool)
    (jwk_ok : obj -> bool) (jwe_encrypt : obj -> obj -> obj -> res string) (lower sign : string -> string) (now : Z)
    (http : http_client) (endpoint : url) (store : list credential) (p : params) (out : option string),
    let run := authorize url_parse ssi_header uri_ok jwk_ok jwe_encrypt lower sign now http endpoint store false p in
    posts (http_events (fst run)) = [] /\ snd run <> Ok out.
Proof.
  intros up ssi uok jok enc lower sign now http ep store p out run. unfold run, authorize. split.
  - rewrite lift_bind. destruct (from_url up (build_request_url ep p) ep) as [ar|e]; [|reflexivity].
    rewrite mbind_fst, http_app, posts_app, posts_resolve. cbn [app].
    destruct (snd (resolve_request up ssi uok http ar)) as [[a jwt]|e]; [|reflexivity].
    rewrite lift_bind. destruct (match aro_dcql a with Some r => _ | None => _ end) as [q|e]; reflexivity.
  - intros H. apply mbind_ok in H as (ar & _ & H). apply mbind_ok in H as ([a jwt] & _ & H).
    apply mbind_ok in H as (q & _ & H). apply mbind_ok in H as (sel & Es & _). discriminate.
Qed.

Example c74_consent_ex :
  posts (http_events (fst (ex_run None (ex_object "x509_san_dns:v.example")))) <> []
  /\ snd (authorize simple_parse any_header (fun _ => true) (fun _ => true) (fun h c k => Ok (jprint (JArr [JObj h; JObj c])))
           (fun s => s) (fun _ => "S") 5 (serve 200 "{}") ex_endpoint [pid] false (ex_params None (ex_object "x509_san_dns:v.example")))
     = Err "user declined".
Proof. split; [vm_compute; discriminate|vm_compute; reflexivity]. Qed.
