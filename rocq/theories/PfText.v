From Coq Require Import Lia.
From Verif Require Import Base BaseFacts Utf8 Json JsonFacts JsonText JsonTextFacts Base64 Base64Facts Url Jwt Request Client.

(* ------------------------------------------------------------ a larger depth limit changes no result *)
Lemma parse_mono f :
  (forall d d' s r, d <= d' -> parse_value f d s = Some r -> parse_value f d' s = Some r)
  /\ (forall d d' s r, d <= d' -> parse_elems f d s = Some r -> parse_elems f d' s = Some r)
  /\ (forall d d' s r, d <= d' -> parse_members f d s = Some r -> parse_members f d' s = Some r).
Proof.
  induction f as [|f (IHv & IHe & IHm)]; [repeat split; discriminate|]. split; [|split]; intros d d' s r Hd.
  - cbn [parse_value]. destruct (skip_ws s) as [|c q]; [discriminate|].
    destruct (Ascii.eqb c dquote); [auto|].
    destruct (Ascii.eqb c "[").
    { destruct d as [|[|d]]; try discriminate. destruct d' as [|[|d']]; try lia.
      destruct (skip_ws q); [discriminate|]. destruct (Ascii.eqb a "]"); [auto|].
      destruct (parse_elems f (S d) q) as [x|] eqn:E; [|discriminate].
      now rewrite (IHe (S d) (S d') q x ltac:(lia) E). }
    destruct (Ascii.eqb c "{").
    { destruct d as [|[|d]]; try discriminate. destruct d' as [|[|d']]; try lia.
      destruct (skip_ws q); [discriminate|]. destruct (Ascii.eqb a "}"); [auto|].
      destruct (parse_members f (S d) q) as [x|] eqn:E; [|discriminate].
      now rewrite (IHm (S d) (S d') q x ltac:(lia) E). }
    auto.
  - cbn [parse_elems]. destruct (parse_value f d s) as [[v q]|] eqn:E; [|discriminate].
    rewrite (IHv _ _ _ _ Hd E). destruct (skip_ws q); [discriminate|].
    destruct (Ascii.eqb a "]"); [auto|]. destruct (Ascii.eqb a ","); [|discriminate].
    destruct (parse_elems f d s0) as [x|] eqn:E'; [|discriminate]. now rewrite (IHe _ _ _ _ Hd E').
  - cbn [parse_members]. destruct (skip_ws s) as [|c q]; [discriminate|]. destruct (Ascii.eqb c dquote); [|discriminate].
    destruct (parse_str q) as [[k q1]|]; [|discriminate]. destruct (skip_ws q1) as [|c1 q2]; [discriminate|].
    destruct (Ascii.eqb c1 ":"); [|discriminate].
    destruct (parse_value f d q2) as [[v q3]|] eqn:E; [|discriminate].
    rewrite (IHv _ _ _ _ Hd E). destruct (skip_ws q3); [discriminate|].
    destruct (Ascii.eqb a "}"); [auto|]. destruct (Ascii.eqb a ","); [|discriminate].
    destruct (parse_members f d s0) as [x|] eqn:E'; [|discriminate]. now rewrite (IHm _ _ _ _ Hd E').
Qed.
Lemma parse_print_deep j d : jtext_ok j = true -> jdepth j < d ->
  parse_value (2 * String.length (jprint j) + 2) d (jprint j) = Some (j, EmptyString).
Proof.
  intros Ht Hd. rewrite <- (sapp_nil_r (jprint j)) at 2. apply value_rt; auto.
  pose proof (need_le j Ht). lia.
Qed.

(** C66: printing a JSON value and parsing the text yields the same value, exactly for nesting depth at
    most 127; deeper values are not parsed back at all. *)
Lemma c66_roundtrip_pf :
  forall j : json, jwf j = true ->
    (jdepth j <= 127 -> json_of_text (jprint j) = Some j)
    /\ (127 < jdepth j -> json_of_text (jprint j) = None).
Proof.
  intros j H. split; [now apply json_text_rt|]. intros Hd.
  unfold jwf in H. apply andb_true_iff in H as [Ht _].
  unfold json_of_text. destruct (parse_raw (jprint j)) as [v|] eqn:E; [|reflexivity]. exfalso.
  pose proof (parse_raw_ok _ _ E) as [_ Hv]. unfold parse_raw in E.
  destruct (parse_value _ 128 (jprint j)) as [[w q]|] eqn:E'; [|discriminate].
  apply (proj1 (parse_mono _)) with (d' := S (jdepth j)) in E'; [|lia].
  rewrite (parse_print_deep j (S (jdepth j)) Ht ltac:(lia)) in E'. injection E' as <- <-.
  cbn in E. injection E as <-. lia.
Qed.

Fixpoint nest (n : nat) : json := match n with O => JNull | S n => JArr [nest n] end.
Example c66_roundtrip_ex :
  jwf (JObj [("a", JArr [JStr "x""y"; JInt (-3); JNull]); ("b", JObj [])]) = true
  /\ json_of_text (jprint (nest 127)) = Some (nest 127) /\ json_of_text (jprint (nest 128)) = None.
Proof. repeat split; vm_compute; reflexivity. Qed.

(** C66: different values print differently, whatever their depth. *)
Lemma c66_injective_pf :
  forall j k : json, jwf j = true -> jwf k = true -> jprint j = jprint k -> j = k.
Proof.
  intros j k Hj Hk E. apply andb_true_iff in Hj as [Hj _]. apply andb_true_iff in Hk as [Hk _].
  pose proof (parse_print_deep j (S (Nat.max (jdepth j) (jdepth k))) Hj ltac:(lia)) as P.
  pose proof (parse_print_deep k (S (Nat.max (jdepth j) (jdepth k))) Hk ltac:(lia)) as Q.
  rewrite E in P. rewrite P in Q. now injection Q.
Qed.

Example c66_injective_ex : jwf (JStr "1") = true /\ jwf (JInt 1) = true.
Proof. split; reflexivity. Qed.

(** C66: whatever text was parsed, printing and parsing again gives the same value; parsed values have
    sorted distinct keys, valid text and bounded depth. *)
Lemma c66_parsed_pf :
  forall (s : string) (j : json),
    json_of_text s = Some j -> jwf j = true /\ jdepth j <= 127 /\ json_of_text (jprint j) = Some j.
Proof. intros s j H. destruct (json_of_text_wf _ _ H). auto using json_text_rt. Qed.

Example c66_parsed_ex :
  json_of_text " { ""b"" : [1 , true], ""a"":null , ""b"":""A"" } "
  = Some (JObj [("a", JNull); ("b", JStr "A")]).
Proof. vm_compute. reflexivity. Qed.

(** C66: of several members with the same name the last one counts. *)
Lemma c66_last_wins_pf :
  forall (m : list (string * json)) (k : string) (v : json) (o : obj),
    parse_raw (jprint (JObj m)) = Some (JObj m) ->
    json_of_text (jprint (JObj m)) = Some (JObj o) ->
    obj_get k o = Some v ->
    exists a b x, m = a ++ (k, x) :: b /\ normalize x = v /\ ~ In k (map fst b).
Proof.
  intros m k v o P H G. unfold json_of_text in H. rewrite P in H. cbn [option_map] in H. injection H as <-.
  rewrite get_of_list in G.
  assert (X : forall l : list (string * json), last_get k l = Some v ->
     exists a b, l = a ++ (k, v) :: b /\ ~ In k (map fst b)).
  { clear. induction l as [|[k' x] l IH]; cbn [last_get]; [discriminate|].
    destruct (last_get k l) as [y|] eqn:E.
    - intros H. injection H as ->. destruct (IH eq_refl) as (a & b & -> & N). exists ((k', x) :: a), b. auto.
    - destruct (String.eqb_spec k k') as [->|]; [|discriminate]. intros H. injection H as ->.
      exists [], l. split; [reflexivity|]. now apply last_get_none. }
  apply X in G as (a & b & E & N).
  assert (Y : forall (l : list (string * json)) a b, map (fun kv : string * json => (fst kv, normalize (snd kv))) l = a ++ (k, v) :: b ->
     exists a' b' x, l = a' ++ (k, x) :: b' /\ normalize x = v /\ map fst b' = map fst b).
  { clear. induction l as [|[k' x] l IH]; intros a b H; [destruct a; discriminate|].
    destruct a as [|y a]; cbn in H.
    - injection H as -> H <-. exists [], l, x. repeat split; auto. rewrite map_map. reflexivity.
    - injection H as _ H. destruct (IH _ _ H) as (a' & b' & z & -> & Hz & Hb). exists ((k', x) :: a'), b', z. auto. }
  destruct (Y _ _ _ E) as (a' & b' & x & -> & Hx & Hb). exists a', b', x. rewrite Hb. auto.
Qed.

Example c66_last_wins_ex :
  json_of_text "{""a"":1,""a"":2}" = Some (JObj [("a", JInt 2)])
  /\ parse_raw (jprint (JObj [("a", JInt 1); ("a", JInt 2)])) = Some (JObj [("a", JInt 1); ("a", JInt 2)]).
Proof. split; vm_compute; reflexivity. Qed.

(* ------------------------------------------------------------ C65 *)
Lemma split_jws_join h p s : has_char "." h = false -> has_char "." p = false ->
  split_jws (h +:+ "." +:+ p +:+ "." +:+ s) = Ok (h, p, s).
Proof.
  intros H1 H2. unfold split_jws.
  replace (split_once "." (h +:+ "." +:+ p +:+ "." +:+ s)) with (Some (h, p +:+ "." +:+ s))
    by (symmetry; apply split_once_some; auto).
  replace (split_once "." (p +:+ "." +:+ s)) with (Some (p, s)) by (symmetry; apply split_once_some; auto).
  reflexivity.
Qed.
Lemma b64url_rt s : b64url_decode (b64url_encode s) = Some s.
Proof. apply b64_rt. Qed.

(** C65: the JWT made from a header and a request object splits into the three base64url parts, the
    signature is over the first two, and header and body are read back unchanged. *)
Lemma c65_make_jwt_pf :
  forall (key : Type) (s : signer key) (ssi_header : obj -> option bool) (h : obj) (body : aro),
    jwf (JObj h) = true -> jdepth (JObj h) <= 127 ->
    jwf (aro_to_json body) = true -> jdepth (aro_to_json body) <= 127 ->
    ssi_header h = Some true ->
    exists h64 p64 s64,
      split_jws (make_jwt (JObj h) body s) = Ok (h64, p64, s64)
      /\ b64url_decode h64 = Some (jprint (JObj h))
      /\ b64url_decode p64 = Some (jprint (aro_to_json body))
      /\ b64url_decode s64 = Some (sg_sign s (h64 +:+ "." +:+ p64))
      /\ jws_headers h64 = Ok h
      /\ decode_unverified ssi_header (make_jwt (JObj h) body s) = Ok (ro_inner body).
Proof.
  intros key s ssi h body W1 D1 W2 D2 Hs. unfold make_jwt.
  set (h64 := b64url_encode (jprint (JObj h))). set (p64 := b64url_encode (jprint (aro_to_json body))).
  set (s64 := b64url_encode _).
  assert (Hsp : split_jws (h64 +:+ "." +:+ p64 +:+ "." +:+ s64) = Ok (h64, p64, s64))
    by (apply split_jws_join; apply b64url_no_dot).
  assert (Hh : jws_headers h64 = Ok h).
  { unfold jws_headers, h64. rewrite b64url_rt. cbn [ok_or rbind]. unfold map_of_text.
    now rewrite json_text_rt. }
  exists h64, p64, s64. repeat split; try (apply b64url_rt); auto.
  unfold decode_unverified, jws_payload. rewrite Hsp. cbn [rbind]. unfold s64 at 1. rewrite b64url_rt.
  cbn [ok_or rbind]. rewrite Hh. cbn [rbind]. rewrite Hs. cbn [ok_or rbind]. unfold p64. rewrite b64url_rt.
  cbn [ok_or rbind]. unfold map_of_text. rewrite json_text_rt by assumption. reflexivity.
Qed.

Definition tiny_request : obj :=
  [("client_id", JStr "x509_hash:abc"); ("nonce", JStr "n"); ("response_mode", JStr "dc_api"); ("response_type", JStr "vp_token")].
Example c65_make_jwt_ex :
  exists body, aro_of_obj simple_parse tiny_request = Ok body
  /\ jwf (aro_to_json body) = true /\ jdepth (aro_to_json body) <= 127
  /\ jwf (did_header "ES256" "did:x#1") = true.
Proof.
  eexists. split; [reflexivity|]. split; [reflexivity|]. split; [|reflexivity].
  apply Nat.leb_le. vm_compute. reflexivity.
Qed.

(** C65: base64url decoding accepts only the canonical encoding: equal bytes come from equal text. *)
Lemma c65_canonical_pf :
  (forall s, b64url_decode (b64url_encode s) = Some s)
  /\ (forall t s, b64url_decode t = Some s -> t = b64url_encode s)
  /\ (forall t t' s, b64url_decode t = Some s -> b64url_decode t' = Some s -> t = t').
Proof.
  repeat split.
  - intros s. apply b64_rt.
  - intros t s. apply b64_canonical.
  - intros t t' s H H'. now rewrite (b64_canonical _ _ _ H), (b64_canonical _ _ _ H').
Qed.

Example c65_canonical_ex :
  b64url_decode "_-8" = Some (String "255" (String "239" "")) /\ b64url_decode "_-9" = None /\ b64url_decode "_-8=" = None.
Proof. repeat split; vm_compute; reflexivity. Qed.

(** C65: reading a JWT depends on nothing but its three parts: two JWTs with the same decoded header,
    payload and signature are the same text. *)
Lemma c65_unique_pf :
  forall jwt jwt' h p s h' p' s' a b c,
    split_jws jwt = Ok (h, p, s) -> split_jws jwt' = Ok (h', p', s') ->
    b64url_decode h = Some a -> b64url_decode h' = Some a ->
    b64url_decode p = Some b -> b64url_decode p' = Some b ->
    b64url_decode s = Some c -> b64url_decode s' = Some c ->
    jwt = jwt'.
Proof.
  assert (S : forall jwt h p s, split_jws jwt = Ok (h, p, s) -> jwt = h +:+ "." +:+ p +:+ "." +:+ s).
  { intros jwt h p s. unfold split_jws. destruct (split_once "." jwt) as [[x r]|] eqn:E; [|discriminate].
    destruct (split_once "." r) as [[y z]|] eqn:E'; [|discriminate]. intros H. injection H as -> -> ->.
    apply split_once_some in E as [-> _]. apply split_once_some in E' as [-> _]. reflexivity. }
  intros jwt jwt' h p s h' p' s' a b c H H' A A' B B' C C'.
  rewrite (S _ _ _ _ H), (S _ _ _ _ H').
  now rewrite (b64_canonical _ _ _ A), (b64_canonical _ _ _ A'), (b64_canonical _ _ _ B),
    (b64_canonical _ _ _ B'), (b64_canonical _ _ _ C), (b64_canonical _ _ _ C').
Qed.

Example c65_unique_ex : split_jws "e30.e30.AAAA" = Ok ("e30", "e30", "AAAA") /\ b64url_decode "e30" = Some "{}".
Proof. split; vm_compute; reflexivity. Qed.
