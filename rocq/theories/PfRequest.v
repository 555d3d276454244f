From Coq Require Import Lia.
From Verif Require Import Base BaseFacts Utf8 Utf8Facts Json JsonFacts JsonText JsonTextFacts Serde MapFacts Url UrlEncoded UrlEncodedFacts Object Params
  Effects Jwt Request Spec SpecObject SpecRequest ParamFacts.

(* ------------------------------------------------------------ inversion of parsing *)
Lemma resolve_prefix_split c : resolve_prefix c = option_map fst (split_once ":" c).
Proof.
  unfold resolve_prefix. destruct (split_once ":" c) as [[a b]|] eqn:E.
  - apply split_once_some in E as [-> H].
    assert (X : has_char ":" (a +:+ String ":" b) = true) by (apply has_char_iff; eauto).
    rewrite X, split_all_cons by exact H. reflexivity.
  - apply split_once_none in E. now rewrite E.
Qed.

Lemma text_get k o : match uo_get (p_string k) o with
  | None => absent k o
  | Some (Ok s) => text_at k o s
  | Some (Err _) => ~ absent k o /\ forall s, ~ text_at k o s
  end.
Proof.
  unfold uo_get, absent, text_at. cbn [tp_key tp_of p_string]. destruct (obj_get k o) as [v|]; [|reflexivity].
  destruct v; cbn; try (split; [discriminate|intros s H; discriminate]). reflexivity.
Qed.

(** What the response mode parameter means. *)
Definition mode_at (o : obj) (m : response_mode) : Prop :=
  absent "response_mode" o /\ m = DirectPost
  \/ exists s, text_at "response_mode" o s /\ m = mode_of_string s.

Lemma mode_get o m : uo_get_or_default p_response_mode default_mode o = Ok m <-> mode_at o m.
Proof.
  unfold uo_get_or_default, mode_at, absent, text_at. cbn [tp_key tp_of p_response_mode default_mode].
  destruct (obj_get "response_mode" o) as [v|].
  - split.
    + destruct v; cbn; try discriminate. intros H. injection H as <-. right. eauto.
    + intros [[H _]|(s & H & ->)]; [discriminate|]. injection H as ->. reflexivity.
  - split; [intros H; injection H as <-; auto|]. intros [[_ ->]|(s & H & _)]; [reflexivity|discriminate].
Qed.

Lemma url_get up k o : match uo_get (p_url up k) o with
  | None => absent k o
  | Some (Ok u) => exists s, text_at k o s /\ up s = Some u
  | Some (Err _) => ~ absent k o /\ forall s u, text_at k o s -> up s <> Some u
  end.
Proof.
  unfold uo_get, absent, text_at. cbn [tp_key tp_of p_url]. destruct (obj_get k o) as [v|]; [|reflexivity].
  destruct v; cbn; try (split; [discriminate|intros s u H; discriminate]).
  unfold de_url. cbn. destruct (up s) as [u|] eqn:E; cbn; [eauto|].
  split; [discriminate|]. intros s' u H. injection H as ->. congruence.
Qed.

(** Inversion: everything about an accepted object. *)
Record accepted (up : string -> option url) (o : obj) (a : aro) : Prop := {
  acc_inner : ro_inner a = o;
  acc_client : match ro_client_id a with None => absent "client_id" o | Some c => text_at "client_id" o c end;
  acc_scheme : ro_scheme a = match ro_client_id a with Some c => resolve_prefix c | None => None end;
  acc_mode : mode_at o (ro_mode a);
  acc_type : exists s, text_at "response_type" o s /\ ro_type a = rtype_of_string s;
  acc_nonce : text_at "nonce" o (ro_nonce a);
  acc_redirect : absent "redirect_uri" o;
  acc_return :
    match ro_mode a with
    | DirectPost | DirectPostJwt => exists s, text_at "response_uri" o s /\ up s = Some (ro_return a)
    | DcApi | DcApiJwt => absent "response_uri" o /\ up "https://example.com" = Some (ro_return a)
    | UnsupportedMode _ => False
    end
}.

Lemma aro_of_inv up o a : aro_of_obj up o = Ok a <-> accepted up o a.
Proof.
  pose proof (text_get "client_id" o) as Hc. pose proof (text_get "nonce" o) as Hn.
  pose proof (url_get up "redirect_uri" o) as Hr. pose proof (url_get up "response_uri" o) as Hu.
  unfold aro_of_obj, p_redirect_uri, p_response_uri, p_client_id, p_nonce. split.
  - intros H. apply rbind_ok in H as (cid & Ec & H). apply rbind_ok in H as (m & Em & H).
    apply rbind_ok in H as (u & Eu & H). apply rbind_ok in H as (rt & Et & H). apply rbind_ok in H as (n & En & H).
    injection H as <-. apply context_ok in Em. apply mode_get in Em.
    constructor; cbn [ro_inner ro_client_id ro_scheme ro_mode ro_type ro_return ro_nonce].
    + reflexivity.
    + destruct (uo_get (p_string "client_id") o) as [[c|e]|]; cbn in Ec; try discriminate; now injection Ec as <-.
    + reflexivity.
    + exact Em.
    + unfold uo_get in Et. cbn [tp_key tp_of p_response_type] in Et. unfold text_at.
      destruct (obj_get "response_type" o) as [v|]; [|discriminate]. destruct v; cbn in Et; try discriminate.
      injection Et as <-. eauto.
    + destruct (uo_get (p_string "nonce") o) as [[c|e]|]; cbn in En; try discriminate. now injection En as <-.
    + destruct (uo_get (p_url up "redirect_uri") o) as [x|]; [|exact Hr].
      destruct (uo_get (p_url up "response_uri") o) as [y|]; destruct m; discriminate.
    + destruct (uo_get (p_url up "redirect_uri") o) as [x|];
      destruct (uo_get (p_url up "response_uri") o) as [y|]; destruct m; try discriminate; cbn in Eu |- *;
        try (apply ok_or_ok in Eu; split; [exact Hu|exact Eu]);
        (apply context_ok in Eu; subst y; exact Hu).
  - intros [Hi Hcl Hs Hm (s & Ht & Hty) Hno Hre Hret]. destruct a as [inner cid sch m rt u n].
    cbn in *. subst inner sch rt.
    assert (Ec : match uo_get (p_string "client_id") o with
       | Some r => rmap Some (context r "'client_id' could not be parsed") | None => Ok None end = Ok cid).
    { destruct cid as [c|]; unfold uo_get, text_at, absent in *; cbn [tp_key tp_of p_string]; rewrite Hcl; reflexivity. }
    rewrite Ec. cbn [rbind]. apply mode_get in Hm. rewrite Hm. cbn [context rbind].
    destruct (uo_get (p_url up "redirect_uri") o) as [x|] eqn:Er.
    { exfalso. unfold uo_get in Er. cbn in Er. unfold absent in Hre. rewrite Hre in Er. discriminate. }
    assert (Et : parsing_error (uo_get p_response_type o) = Ok (rtype_of_string s)).
    { unfold uo_get, text_at in *. cbn [tp_key tp_of p_response_type]. rewrite Ht. reflexivity. }
    assert (En : parsing_error (uo_get (p_string "nonce") o) = Ok n).
    { unfold uo_get, text_at in *. cbn [tp_key tp_of p_string]. rewrite Hno. reflexivity. }
    assert (Eu : match m with DirectPost | DirectPostJwt => uo_get (p_url up "response_uri") o = Some (Ok u)
                         | _ => uo_get (p_url up "response_uri") o = None end).
    { unfold uo_get, text_at, absent in *. cbn [tp_key tp_of p_url].
      destruct m; try (destruct Hret as [H1 H2]; rewrite H1; reflexivity); try contradiction;
        destruct Hret as (r & H1 & H2); rewrite H1; unfold de_url; cbn; now rewrite H2. }
    destruct m; try contradiction; rewrite Eu; cbn [context rbind].
    1,2: rewrite Et; cbn [rbind]; rewrite En; reflexivity.
    1,2: destruct Hret as [_ ->]; cbn [ok_or rbind]; rewrite Et; cbn [rbind]; rewrite En; reflexivity.
Qed.

Lemma mode_at_direct o m : mode_at o m ->
  (m = DirectPost \/ m = DirectPostJwt) <-> says_direct_post o.
Proof.
  unfold mode_at, says_direct_post, absent, text_at. intros [[H ->]|(s & H & ->)].
  - split; auto.
  - rewrite H. unfold mode_of_string. split.
    + destruct (String.eqb_spec s "direct_post") as [->|]; [auto|].
      destruct (String.eqb_spec s "direct_post.jwt") as [->|]; [auto|].
      destruct (String.eqb s "dc_api"); [intros [X|X]; discriminate|].
      destruct (String.eqb s "dc_api.jwt"); intros [X|X]; discriminate.
    + intros [X|[X|X]]; [discriminate| |]; injection X as ->; cbn; auto.
Qed.
Lemma mode_at_dc o m : mode_at o m -> (m = DcApi \/ m = DcApiJwt) <-> says_dc_api o.
Proof.
  unfold mode_at, says_dc_api, absent, text_at. intros [[H ->]|(s & H & ->)].
  - rewrite H. split; intros [X|X]; discriminate.
  - rewrite H. unfold mode_of_string. split.
    + destruct (String.eqb s "direct_post"); [intros [X|X]; discriminate|].
      destruct (String.eqb s "direct_post.jwt"); [intros [X|X]; discriminate|].
      destruct (String.eqb_spec s "dc_api") as [->|]; [auto|].
      destruct (String.eqb_spec s "dc_api.jwt") as [->|]; [auto|intros [X|X]; discriminate].
    + intros [X|X]; injection X as ->; cbn; auto.
Qed.

(** C06: a parameter object is accepted as an authorization request object exactly when it is acceptable. *)
Lemma c06_accept_pf :
  forall (url_parse : string -> option url) (o : obj),
    url_parse "https://example.com" <> None ->
    (exists a, aro_of_obj url_parse o = Ok a) <-> acceptable url_parse o.
Proof.
  intros up o Hex. split.
  - intros [a H]. apply aro_of_inv in H as [Hi Hcl Hs Hm (s & Ht & Hty) Hno Hre Hret].
    unfold acceptable. refine (conj _ (conj _ (conj _ _))); [|
      |exists s; exact Ht|exists (ro_nonce a); exact Hno].
    + destruct (ro_client_id a); eauto.
    + pose proof (mode_at_direct _ _ Hm) as D. pose proof (mode_at_dc _ _ Hm) as C.
      destruct (ro_mode a); try contradiction.
      * left. split; [apply D; auto|]. split; [exact Hre|]. destruct Hret as (r & H1 & H2). eauto.
      * left. split; [apply D; auto|]. split; [exact Hre|]. destruct Hret as (r & H1 & H2). eauto.
      * right. split; [apply C; auto|]. split; [exact Hre|]. apply Hret.
      * right. split; [apply C; auto|]. split; [exact Hre|]. apply Hret.
  - intros (Hc & Hm & (t & Ht) & (n & Hn)).
    assert (Hcid : exists cid, match cid with None => absent "client_id" o | Some c => text_at "client_id" o c end).
    { destruct Hc as [H|[c H]]; [exists None|exists (Some c)]; exact H. }
    destruct Hcid as [cid Hcid]. destruct (up "https://example.com") as [ex|] eqn:E; [|congruence].
    assert (Hmode : exists m, mode_at o m).
    { unfold mode_at. destruct Hm as [[[X|[X|X]] _]|[[X|X] _]]; eexists; eauto. }
    destruct Hmode as [m Hmm].
    destruct Hm as [(D & Hre & (r & u & Hr & Hu))|(D & Hre & Hr)].
    + exists (mk_aro o cid (match cid with Some c => resolve_prefix c | None => None end) m (rtype_of_string t) u n).
      apply aro_of_inv. apply (mode_at_direct _ _ Hmm) in D.
      constructor; cbn; eauto. destruct D as [-> | ->]; eauto.
    + exists (mk_aro o cid (match cid with Some c => resolve_prefix c | None => None end) m (rtype_of_string t) ex n).
      apply aro_of_inv. apply (mode_at_dc _ _ Hmm) in D.
      constructor; cbn; eauto. destruct D as [-> | ->]; eauto.
Qed.

Definition sample_request : obj :=
  [("client_id", JStr "x509_san_dns:v.example"); ("client_metadata", JObj []); ("nonce", JStr "n1");
   ("response_mode", JStr "direct_post"); ("response_type", JStr "vp_token");
   ("response_uri", JStr "https://v.example/resp"); ("zzz", JArr [JNull])].
Example c06_accept_ex :
  (exists a, aro_of_obj simple_parse sample_request = Ok a)
  /\ simple_parse "https://example.com" <> None
  /\ aro_of_obj simple_parse (obj_insert "redirect_uri" (JStr "https://x.example/") sample_request) = Err "mutually exclusive"
  /\ aro_of_obj simple_parse (obj_insert "response_mode" (JStr "query") sample_request) = Err "unsupported response_mode"
  /\ aro_of_obj simple_parse (obj_insert "response_mode" (JStr "dc_api") sample_request) = Err "'response_uri' cannot be present".
Proof. repeat split; try discriminate. eexists. reflexivity. Qed.

(** C07: in the direct_post modes the return URI is the request's response_uri. *)
Lemma c07_return_uri_pf :
  forall (url_parse : string -> option url) (o : obj) (a : aro),
    aro_of_obj url_parse o = Ok a -> ro_mode a = DirectPost \/ ro_mode a = DirectPostJwt ->
    exists s, text_at "response_uri" o s /\ url_parse s = Some (ro_return a).
Proof.
  intros up o a H M. apply aro_of_inv in H as [_ _ _ _ _ _ _ Hret].
  destruct M as [M|M]; rewrite M in Hret; exact Hret.
Qed.

Example c07_return_uri_ex :
  exists a, aro_of_obj simple_parse sample_request = Ok a /\ ro_mode a = DirectPost
  /\ url_str (ro_return a) = "https://v.example/resp".
Proof. eexists. repeat split. Qed.

(** C07: no other parameter influences the return URI: two accepted request objects with the same
    response_uri member have the same return URI, whatever else they contain. *)
Lemma c07_no_influence_pf :
  forall (url_parse : string -> option url) (o o' : obj) (a a' : aro),
    aro_of_obj url_parse o = Ok a -> aro_of_obj url_parse o' = Ok a' ->
    obj_get "response_uri" o = obj_get "response_uri" o' ->
    ro_return a = ro_return a'.
Proof.
  intros up o o' a a' H H' E.
  apply aro_of_inv in H as [_ _ _ _ _ _ _ R]. apply aro_of_inv in H' as [_ _ _ _ _ _ _ R'].
  unfold text_at, absent in *.
  destruct (ro_mode a), (ro_mode a'); try contradiction;
    repeat match goal with
    | H : exists _, _ |- _ => destruct H
    | H : _ /\ _ |- _ => destruct H
    end; congruence.
Qed.

Example c07_no_influence_ex :
  exists a', aro_of_obj simple_parse (obj_insert "response_mode" (JStr "direct_post.jwt")
      (obj_insert "client_id" (JStr "attacker") sample_request)) = Ok a'
  /\ url_str (ro_return a') = "https://v.example/resp".
Proof. eexists. split; reflexivity. Qed.

(** C07: for the Digital Credentials API the return URI is a fixed placeholder that the request does not
    name. *)
Lemma c07_placeholder_refuted_pf :
  exists o a, aro_of_obj simple_parse o = Ok a /\ obj_get "response_uri" o = None /\ obj_get "redirect_uri" o = None
    /\ url_str (ro_return a) = "https://example.com".
Proof.
  exists [("nonce", JStr "n"); ("response_mode", JStr "dc_api"); ("response_type", JStr "vp_token")].
  eexists. repeat split.
Qed.

(** C08: turning an accepted request object back into JSON yields the original JSON with all its members,
    and parsing that yields the same request object. *)
Lemma c08_roundtrip_pf :
  forall (url_parse : string -> option url) (o : obj) (a : aro),
    aro_of_obj url_parse o = Ok a ->
    aro_to_json a = JObj o /\ aro_of_json url_parse (aro_to_json a) = Ok a
    /\ (jwf (JObj o) = true -> jdepth (JObj o) <= 127 ->
        json_of_text (jprint (aro_to_json a)) = Some (JObj o)).
Proof.
  intros up o a H. pose proof H as H0. apply aro_of_inv in H as [Hi _ _ _ _ _ _ _].
  unfold aro_to_json, aro_to_obj, aro_of_json. rewrite Hi. repeat split.
  - cbn. exact H0.
  - apply json_text_rt.
Qed.

Example c08_roundtrip_ex :
  jwf (JObj sample_request) = true
  /\ exists a, aro_of_obj simple_parse sample_request = Ok a
  /\ obj_get "zzz" (aro_to_obj a) = Some (JArr [JNull]).
Proof. split; [vm_compute; reflexivity|]. eexists. split; reflexivity. Qed.

(** C09: after parsing, the accessors say what the raw parameters say. *)
Lemma c09_views_pf :
  forall (url_parse : string -> option url) (o : obj) (a : aro),
    aro_of_obj url_parse o = Ok a ->
    (ro_client_id a = None /\ absent "client_id" o
     \/ exists c, ro_client_id a = Some c /\ text_at "client_id" o c)
    /\ ro_scheme a = match ro_client_id a with
                     | None => None
                     | Some c => option_map fst (split_once ":" c)
                     end
    /\ (absent "response_mode" o /\ ro_mode a = DirectPost
        \/ exists s, text_at "response_mode" o s /\ ro_mode a = mode_of_string s
             /\ In s ["direct_post"; "direct_post.jwt"; "dc_api"; "dc_api.jwt"])
    /\ (exists s, text_at "response_type" o s /\ rtype_to_string (ro_type a) = s)
    /\ text_at "nonce" o (ro_nonce a)
    /\ (forall T (P : tparam T), aro_get P a = uo_get P o).
Proof.
  intros up o a H. apply aro_of_inv in H as [Hi Hcl Hs Hm (s & Ht & Hty) Hno Hre Hret].
  refine (conj _ (conj _ (conj _ (conj _ (conj _ _))))).
  - destruct (ro_client_id a); eauto.
  - rewrite Hs. destruct (ro_client_id a) as [c|]; [|reflexivity]. apply resolve_prefix_split.
  - destruct Hm as [Hm|(m & Hm & E)]; [auto|]. right. exists m. split; [exact Hm|]. split; [exact E|].
    rewrite E in Hret. unfold mode_of_string in Hret.
    destruct (String.eqb_spec m "direct_post"); [cbn; auto|].
    destruct (String.eqb_spec m "direct_post.jwt"); [cbn; auto|].
    destruct (String.eqb_spec m "dc_api"); [cbn; auto|].
    destruct (String.eqb_spec m "dc_api.jwt"); [cbn; auto 6|contradiction].
  - exists s. split; [exact Ht|]. rewrite Hty. apply rtype_to_of.
  - exact Hno.
  - intros T P. unfold aro_get. now rewrite Hi.
Qed.

Example c09_views_ex :
  exists a, aro_of_obj simple_parse sample_request = Ok a /\ ro_scheme a = Some "x509_san_dns" /\ ro_nonce a = "n1".
Proof. eexists. repeat split. Qed.

(** C09: mutation through the map view changes the raw parameters but none of the accessors. *)
Lemma c09_mutation_pf :
  forall T (P : tparam T) (t : T) (a : aro),
    let a' := aro_put P t a in
    ro_client_id a' = ro_client_id a /\ ro_scheme a' = ro_scheme a /\ ro_mode a' = ro_mode a
    /\ ro_type a' = ro_type a /\ ro_return a' = ro_return a /\ ro_nonce a' = ro_nonce a
    /\ (forall v, tp_to P t = Ok v -> obj_get (tp_key P) (aro_to_obj a') = Some v).
Proof.
  intros T P t a a'. subst a'. unfold aro_put, aro_to_obj, uo_put, uo_insert. cbn. repeat split.
  intros v ->. cbn. apply obj_get_insert_eq.
Qed.

Example c09_mutation_ex : exists v, tp_to p_nonce "other" = Ok v.
Proof. eexists. reflexivity. Qed.

(** C09: so after mutation the accessors can contradict the parameters: the nonce accessor keeps the old
    nonce although the object, as it would be sent, has the new one. *)
Lemma c09_stale_refuted_pf :
  exists a, aro_of_obj simple_parse sample_request = Ok a
    /\ aro_get p_nonce (aro_put p_nonce "n2" a) = Some (Ok "n2")
    /\ ro_nonce (aro_put p_nonce "n2" a) = "n1".
Proof. eexists. repeat split. Qed.

(* ------------------------------------------------------------ queries *)
Lemma values_app k a b : values_of k (a ++ b) = values_of k a ++ values_of k b.
Proof. unfold values_of. now rewrite filter_app, map_app. Qed.
Lemma values_none k l : values_of k l = [] <-> ~ In k (map fst l).
Proof.
  unfold values_of. induction l as [|[k' v] l IH]; cbn; [tauto|].
  destruct (String.eqb_spec k' k) as [->|N]; cbn.
  - split; [discriminate|]. intros H. exfalso. auto.
  - rewrite IH. intuition.
Qed.
Lemma values_single k v l : values_of k l = [v] <-> single k v l.
Proof.
  unfold single. split.
  - induction l as [|[k' w] l IH]; [discriminate|]. unfold values_of in *. cbn [filter fst].
    destruct (String.eqb_spec k' k) as [->|N]; cbn [map snd].
    + intros H. injection H as -> H. exists [], l. split; [reflexivity|]. split; [tauto|].
      apply values_none. exact H.
    + intros H. destruct (IH H) as (a & b & -> & Na & Nb). exists ((k', w) :: a), b.
      split; [reflexivity|]. split; [|exact Nb]. cbn. intuition.
  - intros (a & b & -> & Na & Nb). apply values_none in Na, Nb.
    change ((k, v) :: b) with ([(k, v)] ++ b). rewrite !values_app, Na, Nb. unfold values_of. cbn.
    now rewrite String.eqb_refl.
Qed.
Lemma others_values k k' l : k <> k' -> values_of k (others_of k' l) = values_of k l.
Proof.
  intros N. unfold values_of, others_of. induction l as [|[x v] l IH]; [reflexivity|]. cbn [filter fst].
  destruct (String.eqb_spec x k') as [->|]; cbn [negb filter fst].
  - destruct (String.eqb_spec k' k); [congruence|]. exact IH.
  - destruct (String.eqb x k); cbn [map snd]; now rewrite IH.
Qed.
Lemma others_keys k l : ~ In k (map fst (others_of k l)).
Proof.
  unfold others_of. induction l as [|[x v] l IH]; [tauto|]. cbn [filter fst].
  destruct (String.eqb_spec x k) as [->|]; cbn [negb map fst]; [exact IH|]. intros [|]; auto.
Qed.

Lemma last_get_value k v l :
  last_get k (map (fun kv : string * string => (fst kv, JStr (snd kv))) l) = Some v
  <-> exists s, v = JStr s /\ last_value k s l.
Proof.
  unfold last_value. induction l as [|[x w] l IH]; cbn [map last_get fst snd].
  - split; [discriminate|]. intros (s & _ & a & b & H & _). destruct a; discriminate.
  - assert (E0 : map fst (map (fun kv : string * string => (fst kv, JStr (snd kv))) l) = map fst l)
      by (rewrite map_map; reflexivity).
    destruct (last_get k _) as [y|] eqn:E.
    + rewrite IH. split.
      * intros (s & -> & a & b & -> & N). exists s. split; [reflexivity|]. exists ((x, w) :: a), b. auto.
      * intros (s & -> & a & b & H & N). exists s. split; [reflexivity|]. destruct a as [|p a].
        -- exfalso. injection H as -> -> H. subst b. apply N.
           destruct (in_dec string_dec k (map fst l)) as [I|I]; [exact I|].
           rewrite <- E0 in I. apply last_get_none in I. congruence.
        -- injection H as _ H. exists a, b. auto.
    + apply last_get_none in E. rewrite E0 in E. split.
      * destruct (String.eqb_spec k x) as [->|]; [|discriminate]. intros H. injection H as <-.
        exists w. split; [reflexivity|]. exists [], l. auto.
      * intros (s & -> & a & b & H & N). destruct a as [|p a].
        -- injection H as -> -> ->. now rewrite String.eqb_refl.
        -- exfalso. injection H as _ ->. apply E. rewrite map_app. apply in_or_app. right. now left.
Qed.
Lemma last_value_others k v k' l : k <> k' -> last_value k v (others_of k' l) <-> last_value k v l.
Proof.
  intros N.
  enough (X : last_get k (map (fun kv : string * string => (fst kv, JStr (snd kv))) (others_of k' l))
              = last_get k (map (fun kv : string * string => (fst kv, JStr (snd kv))) l)).
  { pose proof (last_get_value k (JStr v) (others_of k' l)) as A.
    pose proof (last_get_value k (JStr v) l) as B. rewrite X in A.
    split; intros H.
    - destruct (proj1 B (proj2 A (ex_intro _ v (conj eq_refl H)))) as (s & E & S). now injection E as ->.
    - destruct (proj1 A (proj2 B (ex_intro _ v (conj eq_refl H)))) as (s & E & S). now injection E as ->. }
  unfold others_of. induction l as [|[x w] l IH]; [reflexivity|]. cbn [filter fst].
  destruct (String.eqb_spec x k') as [->|]; cbn [negb map last_get fst snd].
  - rewrite IH. destruct (String.eqb_spec k k'); [contradiction|].
    destruct (last_get k (map (fun kv : string * string => (fst kv, JStr (snd kv))) l)); reflexivity.
  - now rewrite IH.
Qed.

Lemma from_pairs_spec up l r : from_pairs up l = Ok r <-> denotes up l r.
Proof.
  unfold from_pairs, denotes.
  assert (Vr : values_of "request" (others_of "client_id" l) = values_of "request" l) by (apply others_values; discriminate).
  assert (Vu : values_of "request_uri" (others_of "client_id" l) = values_of "request_uri" l) by (apply others_values; discriminate).
  rewrite Vr, Vu. clear Vr Vu. destruct r as [cid ind]. cbn [ar_client_id ar_indirection].
  set (o := obj_of_list (map (fun kv : string * string => (fst kv, JStr (snd kv))) (others_of "client_id" l))).
  assert (Ho : keys_sorted o = true) by (apply keys_sorted_iff, ksorted_of_list).
  assert (Hg : forall k v, obj_get k o = Some v <-> k <> "client_id" /\ exists s, v = JStr s /\ last_value k s l).
  { intros k v. unfold o. rewrite get_of_list, last_get_value. split.
    - intros (s & -> & H). assert (N : k <> "client_id").
      { intros ->. destruct H as (a & b & H & _). apply (others_keys "client_id" l). rewrite H, map_app.
        apply in_or_app. right. now left. }
      split; [exact N|]. exists s. split; [reflexivity|]. now apply (last_value_others k s "client_id" l N).
    - intros (N & s & -> & H). exists s. split; [reflexivity|]. now apply (last_value_others k s "client_id" l N). }
  clearbody o.
  assert (Hc : (match values_of "client_id" l with [] => Ok None | [c] => Ok (Some c) | _ => Err "duplicate field `client_id`" end = Ok cid)
     <-> match cid with None => ~ In "client_id" (map fst l) | Some c => single "client_id" c l end).
  { destruct cid as [c|].
    - rewrite <- values_single. destruct (values_of "client_id" l) as [|x [|y r]]; split; congruence.
    - rewrite <- values_none. destruct (values_of "client_id" l) as [|x [|y r]]; split; congruence. }
  set (i := match values_of "request" l with [r] => ByValue r | _ => _ end).
  assert (Hi : i = ind <-> match ind with
     | ByValue jwt => single "request" jwt l
     | ByReference u => (forall j, ~ single "request" j l) /\ exists s, single "request_uri" s l /\ up s = Some u
     | Direct o => (forall j, ~ single "request" j l) /\ (forall s, single "request_uri" s l -> up s = None)
         /\ keys_sorted o = true
         /\ (forall k v, obj_get k o = Some v <-> k <> "client_id" /\ exists s, v = JStr s /\ last_value k s l)
     end).
  { assert (Hn : (exists j, values_of "request" l = [j]) \/ forall j, values_of "request" l <> [j]).
    { destruct (values_of "request" l) as [|x [|y t]]; [right|left|right]; try (intros; discriminate); eauto. }
    destruct Hn as [[j Hj]|Hn].
    - subst i. rewrite Hj. destruct ind as [jwt|u|o'].
      + rewrite <- values_single, Hj. split; congruence.
      + split; [discriminate|]. intros [H _]. exfalso. apply (H j). now apply values_single.
      + split; [discriminate|]. intros [H _]. exfalso. apply (H j). now apply values_single.
    - assert (Ei : i = match values_of "request_uri" l with
                  | [u] => match up u with Some u' => ByReference u' | None => Direct o end | _ => Direct o end).
      { subst i. destruct (values_of "request" l) as [|x [|y t]]; try reflexivity. exfalso. now apply (Hn x). }
      clearbody i. subst i.
      assert (Hs : forall j, ~ single "request" j l) by (intros j X; apply values_single in X; now apply (Hn j)).
      assert (Hdir : forall o' : obj, (forall s, single "request_uri" s l -> up s = None) ->
         Direct o = Direct o' <-> (forall j, ~ single "request" j l) /\ (forall s, single "request_uri" s l -> up s = None)
         /\ keys_sorted o' = true
         /\ (forall k v, obj_get k o' = Some v <-> k <> "client_id" /\ exists s, v = JStr s /\ last_value k s l)).
      { intros o' Hu. split.
        - intros E. injection E as <-. auto.
        - intros (_ & _ & S & G). f_equal. apply ksorted_ext; [now apply keys_sorted_iff|now apply keys_sorted_iff|].
          intros k. destruct (obj_get k o') as [v|] eqn:E.
          + apply Hg. now apply G.
          + destruct (obj_get k o) as [v|] eqn:E'; [|reflexivity]. apply Hg in E'. apply G in E'. congruence. }
      assert (Hone : (exists s, values_of "request_uri" l = [s]) \/ forall s, values_of "request_uri" l <> [s]).
      { destruct (values_of "request_uri" l) as [|x [|y t]]; [right|left|right]; try (intros; discriminate); eauto. }
      destruct Hone as [[s Es]|Hno].
      + rewrite Es. assert (Hsi : forall s', single "request_uri" s' l <-> s' = s).
        { intros s'. rewrite <- values_single, Es. split; congruence. }
        destruct (up s) as [u'|] eqn:Eu.
        * destruct ind as [jwt|u|o'].
          -- split; [discriminate|]. intros H. now apply Hs in H.
          -- split.
             ++ intros H. injection H as <-. split; [exact Hs|]. exists s. rewrite Hsi. auto.
             ++ intros (_ & s' & H1 & H2). apply Hsi in H1. subst s'. congruence.
          -- split; [discriminate|]. intros (_ & H & _). specialize (H s (proj2 (Hsi s) eq_refl)). congruence.
        * assert (Hu : forall s', single "request_uri" s' l -> up s' = None)
            by (intros s' X; apply Hsi in X; now subst s').
          destruct ind as [jwt|u|o'].
          -- split; [discriminate|]. intros H. now apply Hs in H.
          -- split; [discriminate|]. intros (_ & s' & H1 & H2). apply Hu in H1. congruence.
          -- apply Hdir. exact Hu.
      + assert (E : match values_of "request_uri" l with
                  | [u] => match up u with Some u' => ByReference u' | None => Direct o end | _ => Direct o end = Direct o).
        { destruct (values_of "request_uri" l) as [|x [|y t]]; try reflexivity. exfalso. now apply (Hno x). }
        rewrite E. clear E.
        assert (Hu : forall s', single "request_uri" s' l -> up s' = None)
            by (intros s' X; apply values_single in X; now destruct (Hno s')).
        destruct ind as [jwt|u|o'].
        * split; [discriminate|]. intros H. now apply Hs in H.
        * split; [discriminate|]. intros (_ & s' & H1 & H2). apply Hu in H1. congruence.
        * apply Hdir. exact Hu. }
  rewrite <- Hc, <- Hi. clearbody i. clear.
  destruct (values_of "client_id" l) as [|x [|y t]]; cbn [rbind]; split; intuition congruence.
Qed.

(** C10: the request a query string is read as is exactly the one its pairs denote; it is rejected exactly
    when client_id is repeated. *)
Lemma c10_classification_pf :
  forall (url_parse : string -> option url) (query : string),
    (forall r, from_query_params url_parse query = Ok r <-> denotes url_parse (form_parse query) r)
    /\ ((exists e, from_query_params url_parse query = Err e)
        <-> exists a v b w c, form_parse query = a ++ ("client_id", v) :: b ++ ("client_id", w) :: c).
Proof.
  intros up query. split; [intros r; apply from_pairs_spec|].
  unfold from_query_params, from_pairs. generalize (form_parse query). intros l.
  assert (D : (exists a v b w c, l = a ++ ("client_id", v) :: b ++ ("client_id", w) :: c)
              <-> 2 <= length (values_of "client_id" l)).
  { split.
    - intros (a & v & b & w & c & ->). unfold values_of.
      rewrite filter_app, map_app, app_length. cbn [filter fst String.eqb Ascii.eqb Bool.eqb map length].
      rewrite filter_app, map_app, app_length. cbn. lia.
    - induction l as [|[k v] l IH]; [cbn; lia|]. unfold values_of in *. cbn [filter fst].
      destruct (String.eqb_spec k "client_id") as [->|]; cbn [map length].
      + intros H. destruct (in_dec string_dec "client_id" (map fst l)) as [I|I].
        * apply in_map_iff in I as ([k w] & E & I). cbn in E. subst k. apply in_split in I as (b & c & ->).
          exists [], v, b, w, c. reflexivity.
        * apply values_none in I. unfold values_of in I. rewrite I in H. cbn in H. lia.
      + intros H. destruct (IH H) as (a & x & b & w & c & ->). exists ((k, v) :: a), x, b, w, c. reflexivity. }
  rewrite D. destruct (values_of "client_id" l) as [|x [|y t]]; cbn; split; intros H; try lia;
    try (destruct H; discriminate). eauto.
Qed.

Example c10_classification_ex :
  from_query_params simple_parse "client_id=c&request=j&request_uri=https%3A%2F%2Fv.example%2F"
    = Ok (mk_ar (Some "c") (ByValue "j"))
  /\ from_query_params simple_parse "client_id=c&nonce=a&nonce=b"
    = Ok (mk_ar (Some "c") (Direct [("nonce", JStr "b")]))
  /\ from_query_params simple_parse "request=j&request=k"
    = Ok (mk_ar None (Direct [("request", JStr "k")]))
  /\ from_query_params simple_parse "client_id=c&client_id=c" = Err "duplicate field `client_id`".
Proof. repeat split; vm_compute; reflexivity. Qed.

(** C11: a URL is accepted by [from_url] exactly when it has a query, authority and path equal the
    endpoint's, and the query is readable. *)
Lemma c11_matching_pf :
  forall (url_parse : string -> option url) (u endpoint : url) (r : auth_request),
    from_url url_parse u endpoint = Ok r
    <-> exists q, u_query u = Some q /\ url_authority u = url_authority endpoint
        /\ u_path u = u_path endpoint /\ denotes url_parse (form_parse q) r.
Proof.
  intros up u e r. unfold from_url. split.
  - intros H. apply rbind_ok in H as (q & Eq & H). apply rbind_ok in H as (x & Ea & H).
    apply rbind_ok in H as (y & Ep & H). apply ok_or_ok in Eq. apply of_bool_ok in Ea, Ep.
    apply String.eqb_eq in Ea, Ep. exists q. refine (conj Eq (conj Ea (conj Ep _))). now apply from_pairs_spec.
  - intros (q & -> & -> & -> & H). cbn [ok_or rbind]. rewrite !String.eqb_refl. cbn [of_bool rbind].
    now apply from_pairs_spec.
Qed.

Example c11_matching_ex :
  exists u e, simple_parse "openid4vp://w/p?client_id=c&request=j" = Some u /\ simple_parse "openid4vp://w/p" = Some e
  /\ from_url simple_parse u e = Ok (mk_ar (Some "c") (ByValue "j")).
Proof. eexists. eexists. repeat split. Qed.

(** C11: the scheme is not compared: for every accepted URL, the same URL under any other scheme is
    accepted too. *)
Lemma c11_scheme_ignored_pf :
  forall (url_parse : string -> option url) (u endpoint : url) (r : auth_request) (other : string),
    from_url url_parse u endpoint = Ok r ->
    from_url url_parse (mk_url other (u_auth u) (u_path u) (u_opaque u) (u_query u) (u_frag u)) endpoint = Ok r.
Proof. intros up u e r s H. exact H. Qed.

Example c11_scheme_ignored_ex :
  exists u e, simple_parse "http://w/p?request=j" = Some u /\ simple_parse "openid4vp://w/p" = Some e
  /\ from_url simple_parse u e = Ok (mk_ar None (ByValue "j")).
Proof. eexists. eexists. repeat split. Qed.

(* ------------------------------------------------------------ C12 *)
Lemma mapM_form o : (forall k v, In (k, v) o -> exists s, v = JStr s) ->
  mapM (fun kv : string * json => let? v := form_value (snd kv) in Ok (fst kv, v)) o
  = Ok (map (fun kv : string * json => (fst kv, match snd kv with JStr s => s | _ => EmptyString end)) o).
Proof.
  induction o as [|[k v] o IH]; intros H; [reflexivity|]. cbn [mapM fst snd map].
  destruct (H k v (or_introl eq_refl)) as [s ->]. cbn [form_value rbind].
  rewrite IH by (intros k' v' I; apply (H k' v'); now right). reflexivity.
Qed.
Lemma single_head c x l : ~ In c (map fst l) -> single c x ((c, x) :: l).
Proof. intros H. exists [], l. auto. Qed.
Lemma single_skip c x k v l : k <> c -> single c x ((k, v) :: l) <-> single c x l.
Proof.
  intros N. rewrite <- !values_single. unfold values_of. cbn [filter fst].
  destruct (String.eqb_spec k c); [contradiction|]. reflexivity.
Qed.
Lemma single_in c x l : single c x l -> In c (map fst l).
Proof. intros (a & b & -> & _). rewrite map_app. apply in_or_app. right. now left. Qed.

Lemma denotes_cid up c l r : ~ In "client_id" (map fst l) ->
  denotes up l (mk_ar None r) -> denotes up (("client_id", c) :: l) (mk_ar (Some c) r).
Proof.
  intros N [_ H]. split; [cbn; now apply single_head|]. cbn [ar_indirection] in *.
  assert (S : forall k x, k <> "client_id" -> single k x (("client_id", c) :: l) <-> single k x l)
    by (intros; apply single_skip; congruence).
  assert (L : forall k x, k <> "client_id" -> last_value k x (("client_id", c) :: l) <-> last_value k x l).
  { intros k x K. unfold last_value. split.
    - intros (a & b & E & M). destruct a as [|p a]; [exfalso; injection E; congruence|]. injection E as _ E. eauto.
    - intros (a & b & -> & M). exists (("client_id", c) :: a), b. auto. }
  destruct r as [j|u|o].
  - now apply S.
  - destruct H as [H (s & H1 & H2)]. split.
    + intros j X. apply S in X; [|discriminate]. now apply H in X.
    + exists s. split; [now apply S|exact H2].
  - destruct H as (H & H1 & H2 & H3). split; [|split; [|split]].
    + intros j X. apply S in X; [|discriminate]. now apply H in X.
    + intros s X. apply H1. now apply S in X.
    + exact H2.
    + intros k v. rewrite H3. split; intros (K & s & -> & X); (split; [exact K|]; exists s; split; [reflexivity|]);
        now apply L.
Qed.

(** C12: serialising a request into a URL on the endpoint and reading it back gives the same request. *)
Lemma c12_roundtrip_pf :
  forall (url_parse : string -> option url) (r : auth_request) (endpoint : url),
    representable url_parse r ->
    exists u, to_url r endpoint = Ok u /\ from_url url_parse u endpoint = Ok r
      /\ u_scheme u = u_scheme endpoint /\ u_auth u = u_auth endpoint /\ u_path u = u_path endpoint
      /\ u_frag u = u_frag endpoint.
Proof.
  intros up [cid ind] e [Hc Hi]. cbn [ar_client_id ar_indirection] in *. unfold to_url, to_pairs.
  cbn [ar_client_id ar_indirection].
  set (ps := match ind with
     | ByValue j => [("request", j)] | ByReference u => [("request_uri", url_str u)]
     | Direct o => map (fun kv : string * json => (fst kv, match snd kv with JStr s => s | _ => EmptyString end)) o end).
  assert (Eps : match ind with
             | ByValue j => Ok [("request", j)]
             | ByReference u => Ok [("request_uri", url_str u)]
             | Direct o => mapM (fun kv : string * json => let? v := form_value (snd kv) in Ok (fst kv, v)) o
             end = Ok ps).
  { destruct ind as [j|u|o]; try reflexivity. subst ps. apply mapM_form. intros k v I.
    destruct Hi as (_ & Hv & _). destruct (Hv k v I) as (s & -> & _). eauto. }
  rewrite Eps. cbn [rbind].
  assert (Hn : ~ In "client_id" (map fst ps)).
  { destruct ind as [j|u|o]; subst ps; try (cbn; intuition discriminate).
    rewrite map_map. cbn [fst]. destruct Hi as (_ & _ & Hi & _). exact Hi. }
  assert (Hd : denotes up ps (mk_ar None ind)).
  { split; [exact Hn|]. cbn [ar_indirection]. destruct ind as [j|u|o].
    - now apply single_head.
    - destruct Hi as [_ Hi]. split.
      + intros j X. apply single_in in X. cbn in X. intuition discriminate.
      + exists (url_str u). split; [now apply single_head|exact Hi].
    - destruct Hi as (Hs & Hv & Hk1 & Hk2 & Hk3).
      assert (Hkeys : map fst ps = map fst o) by (subst ps; rewrite map_map; reflexivity).
      split; [|split; [|split]].
      + intros j X. apply single_in in X. rewrite Hkeys in X. contradiction.
      + intros s X. apply single_in in X. rewrite Hkeys in X. contradiction.
      + exact Hs.
      + intros k v. rewrite <- last_get_value.
        assert (Ho : map (fun kv : string * string => (fst kv, JStr (snd kv))) ps = o).
        { subst ps. rewrite map_map. rewrite <- (map_id o) at 2. apply map_ext_in. intros [k' v'] I.
          destruct (Hv k' v' I) as (s & -> & _). reflexivity. }
        rewrite Ho. apply keys_sorted_iff in Hs. rewrite (last_get_nodup k o) by (now apply ksorted_nodup).
        split; [|tauto]. intros G. split; [|exact G]. intros ->. apply obj_get_in in G.
        apply (in_map fst) in G. contradiction. }
  assert (Hu : Forall (fun kv : string * string => utf8_valid (fst kv) = true /\ utf8_valid (snd kv) = true) ps).
  { destruct ind as [j|u|o]; cbn [ps].
    - repeat constructor. exact Hi.
    - repeat constructor. apply Hi.
    - apply Forall_forall. intros [k v] I. apply in_map_iff in I as ([k' j] & E & I).
      destruct Hi as (_ & Hv & _). destruct (Hv _ _ I) as (s & -> & U1 & U2). injection E as <- <-. auto. }
  eexists. split; [reflexivity|]. split; [|auto].
  apply c11_matching_pf. exists (form_serialize (match cid with Some c => [("client_id", c)] | None => [] end ++ ps)).
  split; [reflexivity|]. split; [reflexivity|]. split; [reflexivity|].
  destruct cid as [c|]; cbn [app].
  - rewrite form_parse_serialize by (constructor; [split; [reflexivity|exact Hc]|exact Hu]).
    now apply denotes_cid.
  - rewrite form_parse_serialize by exact Hu. exact Hd.
Qed.

Example c12_roundtrip_ex :
  representable simple_parse (mk_ar (Some "x509_hash:a&b=c") (Direct [("nonce", JStr "1 2"); ("state", JStr "&request=evil")]))
  /\ representable simple_parse (mk_ar None (ByReference (mk_url "https" (Some "v.example") "/r" false (Some "a=1") None))).
Proof.
  split; (split; [reflexivity || exact I|]).
  - cbn [ar_indirection]. split; [reflexivity|]. split.
    + intros k v [E|[E|[]]]; injection E as <- <-; eexists; repeat split; reflexivity.
    + cbn. repeat split; intuition discriminate.
  - split; vm_compute; reflexivity.
Qed.

(** C12: a direct request with a member named request is read back as a request by value, and numbers come
    back as text. *)
Lemma c12_confusion_refuted_pf :
  exists r r' endpoint u, to_url r endpoint = Ok u /\ from_url simple_parse u endpoint = Ok r' /\ r <> r'
    /\ exists r2 r2' u2, to_url r2 endpoint = Ok u2 /\ from_url simple_parse u2 endpoint = Ok r2' /\ r2 <> r2'
       /\ ar_indirection r2 = Direct [("n", JInt 5)] /\ ar_indirection r2' = Direct [("n", JStr "5")].
Proof.
  exists (mk_ar None (Direct [("nonce", JStr "n"); ("request", JStr "jwt")])), (mk_ar None (ByValue "jwt")),
    (mk_url "openid4vp" None "" true None None). eexists.
  split; [reflexivity|]. split; [vm_compute; reflexivity|]. split; [discriminate|].
  exists (mk_ar None (Direct [("n", JInt 5)])), (mk_ar None (Direct [("n", JStr "5")])). eexists.
  split; [reflexivity|]. split; [vm_compute; reflexivity|]. split; [discriminate|]. split; reflexivity.
Qed.

(** C12: a direct request with numbers or booleans is read back with their JSON texts in place of them. *)
Lemma c12_texts_pf :
  forall (url_parse : string -> option url) (cid : option string) (o texts : obj) (endpoint : url),
    Forall2 (fun m m' => fst m' = fst m /\ exists t, snd m' = JStr t /\ in_url (snd m) t) o texts ->
    representable url_parse (mk_ar cid (Direct texts)) ->
    exists u, to_url (mk_ar cid (Direct o)) endpoint = Ok u /\ from_url url_parse u endpoint = Ok (mk_ar cid (Direct texts)).
Proof.
  intros up cid o texts e F R. destruct (c12_roundtrip_pf up _ e R) as (u & T & B & _). exists u. split; [|exact B].
  rewrite <- T. unfold to_url, to_pairs. cbn [ar_client_id ar_indirection]. f_equal. f_equal. clear - F.
  induction F as [|[k v] [k' v'] o texts (E & t & Et & V) F IH]; [reflexivity|]. cbn [fst snd] in *. subst k' v'. cbn [mapM fst snd]. rewrite IH.
  assert (W : form_value v = Ok t).
  { destruct V as [->|(-> & [(b & ->)|[(z & ->)|(f & ->)]])]; reflexivity. }
  rewrite W. reflexivity.
Qed.
Example c12_texts_ex :
  let o := [("b", JBool true); ("n", JInt (-12)); ("s", JStr "1 2")] in
  let texts := [("b", JStr "true"); ("n", JStr "-12"); ("s", JStr "1 2")] in
  Forall2 (fun m m' => fst m' = fst m /\ exists t, snd m' = JStr t /\ in_url (snd m) t) o texts
  /\ representable simple_parse (mk_ar (Some "c") (Direct texts)).
Proof.
  split.
  - repeat apply Forall2_cons; try apply Forall2_nil; (split; [reflexivity|eexists; split; [reflexivity|]]).
    + right. split; [reflexivity|left; now exists true].
    + right. split; [reflexivity|right; left; now exists (-12)%Z].
    + now left.
  - split; [reflexivity|]. split; [reflexivity|]. split.
    + intros k v [E|[E|[E|[]]]]; injection E as <- <-; eexists; (split; [reflexivity|]); split; reflexivity.
    + cbn. split; [|split]; intros [E|[E|[E|[]]]]; discriminate E.
Qed.

(** C12: a request is not serialised exactly when it is given directly and has a null, list or object
    member. *)
Lemma c12_unserialisable_pf :
  forall (r : auth_request) (endpoint : url),
    (exists e, to_url r endpoint = Err e)
    <-> exists o k v, ar_indirection r = Direct o /\ In (k, v) o
        /\ (v = JNull \/ (exists l, v = JArr l) \/ exists m, v = JObj m).
Proof.
  intros [cid ind] e. unfold to_url, to_pairs. cbn [ar_client_id ar_indirection].
  destruct ind as [j|u|o]; cbn [rbind].
  1,2: split; [intros [? H]; discriminate|intros (o & k & v & H & _); discriminate].
  assert (X : (exists e, mapM (fun kv : string * json => let? v := form_value (snd kv) in Ok (fst kv, v)) o = Err e)
     <-> exists k v, In (k, v) o /\ (v = JNull \/ (exists l, v = JArr l) \/ exists m, v = JObj m)).
  { induction o as [|[k v] o IH]; cbn [mapM fst snd].
    - split; [intros [? H]; discriminate|intros (k & v & [] & _)].
    - split.
      + intros [x H]. destruct (form_value v) as [s|y] eqn:E; cbn [rbind] in H.
        * destruct (mapM _ o) as [l|z]; [discriminate|]. destruct (proj1 IH (ex_intro _ z eq_refl)) as (k' & v' & I & W).
          exists k', v'. split; [now right|exact W].
        * exists k, v. split; [now left|]. destruct v; try discriminate; eauto.
      + intros (k' & v' & [E|I] & W).
        * injection E as -> ->. destruct W as [->|[[l ->]|[m ->]]]; cbn; eauto.
        * destruct (form_value v) as [s|y]; cbn [rbind]; [|eauto].
          destruct (proj2 IH (ex_intro _ k' (ex_intro _ v' (conj I W)))) as [z ->]. cbn. eauto. }
  split.
  - intros [x H]. destruct (mapM _ o) as [l|y] eqn:E; [discriminate|].
    destruct (proj1 X (ex_intro _ y eq_refl)) as (k & v & I & W). exists o, k, v. auto.
  - intros (o' & k & v & E & I & W). injection E as <-.
    destruct (proj2 X (ex_intro _ k (ex_intro _ v (conj I W)))) as [z ->]. cbn. eauto.
Qed.

Example c12_unserialisable_ex :
  to_url (mk_ar None (Direct [("client_metadata", JObj [])])) (mk_url "x" None "" true None None) = Err "unsupported value".
Proof. reflexivity. Qed.
