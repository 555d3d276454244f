(** Proofs about the non-integer numbers of JSON values. *)
From Verif Require Import Base BaseFacts Utf8 Json JsonFacts JsonText JsonTextFacts Serde Url Object Formats Params ParamFacts Metadata Dcql Effects Jwt Request Response
  Verify Jwe ExMatcher JsonOrder SpecOrder LikeFacts PfOrder JsonNumber SpecNumber.

(** Raw values that correspond position by position. *)
Inductive twin : json -> json -> Prop :=
| tw_same : forall j, (forall l, j <> JFloat l) -> (forall l, j <> JArr l) -> (forall m, j <> JObj m) -> twin j j
| tw_float : forall l l', twin (JFloat l) (JFloat l')
| tw_arr : forall l l', Forall2 twin l l' -> twin (JArr l) (JArr l')
| tw_obj : forall m m', Forall2 (fun kv kv' : string * json => fst kv = fst kv' /\ twin (snd kv) (snd kv')) m m' -> twin (JObj m) (JObj m').
Lemma to_floats_twin conv j : forall j', to_floats conv j = Some j' -> twin j j'.
Proof.
  induction j using json_ind'; intros j' E; cbn [to_floats] in E; try (injection E as <-; constructor; discriminate).
  - destruct (conv l); [|discriminate]. injection E as <-. constructor.
  - destruct (fold_right _ _ l) as [l'|] eqn:F; [|discriminate]. injection E as <-. constructor. revert l' F. induction H as [|x l Hx _ IH]; cbn [fold_right]; intros l' F; [injection F as <-; constructor|].
    destruct (to_floats conv x) as [y|] eqn:Ex; [|discriminate]. destruct (fold_right _ _ l) as [ys|]; [|discriminate]. injection F as <-. constructor; auto.
  - destruct (fold_right _ _ m) as [m'|] eqn:F; [|discriminate]. injection E as <-. constructor. revert m' F. induction H as [|[k x] m Hx _ IH]; cbn [fold_right fst snd]; intros m' F; [injection F as <-; constructor|].
    destruct (to_floats conv x) as [y|] eqn:Ex; [|discriminate]. destruct (fold_right _ _ m) as [ys|]; [|discriminate]. injection F as <-. constructor; auto.
Qed.
Lemma twin_last (m m' : list (string * json)) k : Forall2 (fun kv kv' => fst kv = fst kv' /\ twin (snd kv) (snd kv')) m m' -> both (fun v v' => In (k, v) m /\ twin v v') (last_get k m) (last_get k m').
Proof.
  induction 1 as [|[k1 v1] [k2 v2] m m' [E T] F IH]; cbn [last_get]; [exact I|]. cbn [fst snd] in E, T. subst k2.
  destruct (last_get k m), (last_get k m'); cbn [both] in *; try contradiction; [destruct IH; split; [now right|assumption]|].
  destruct (String.eqb_spec k k1) as [->|]; cbn [both]; [|exact I]. split; [now left|exact T].
Qed.
Lemma twin_roughly a : forall b, twin a b -> roughly (normalize a) (normalize b).
Proof.
  induction a using json_ind'; intros b' T; inversion T; subst; cbn [normalize];
    try (match goal with N : forall l, JArr _ <> _ |- _ => now destruct (N _ eq_refl) end); try (match goal with N : forall l, JObj _ <> _ |- _ => now destruct (N _ eq_refl) end);
    try (constructor; exact I); try (constructor; fail).
  - constructor. match goal with K : Forall2 twin _ _ |- _ => clear T; rename K into T end. revert l' T. induction H as [|x l Hx _ IH]; intros l' T; inversion T; subst; cbn [map]; constructor; auto.
  - apply alike_obj_iff. split; [apply ksorted_nodup, ksorted_of_list|]. split; [apply ksorted_nodup, ksorted_of_list|]. intros k. rewrite !get_of_list, !last_get_map.
    match goal with K : Forall2 _ m m' |- _ => pose proof (twin_last m m' k K) as L end. destruct (last_get k m) as [v|], (last_get k m') as [v'|]; cbn [both option_map] in *; try contradiction; [|exact I].
    destruct L as [Iv Tv]. rewrite Forall_forall in H. exact (H (k, v) Iv v' Tv).
Qed.
Lemma to_floats_total conv j : (forall l, conv l <> None) -> to_floats conv j <> None.
Proof.
  intros C. induction j using json_ind'; cbn [to_floats]; try discriminate.
  - specialize (C l). now destruct (conv l).
  - assert (E : fold_right (fun x r => match to_floats conv x, r with Some y, Some ys => Some (y :: ys) | _, _ => None end) (Some []) l <> None); [|now destruct (fold_right _ _ l)].
    induction H as [|x l Hx _ IH]; cbn [fold_right]; [discriminate|]. destruct (to_floats conv x); [|now destruct Hx]. now destruct (fold_right _ _ l).
  - assert (E : fold_right (fun (kv : string * json) r => match to_floats conv (snd kv), r with Some y, Some ys => Some ((fst kv, y) :: ys) | _, _ => None end) (Some []) m <> None); [|now destruct (fold_right _ _ m)].
    induction H as [|x m Hx _ IH]; cbn [fold_right]; [discriminate|]. destruct (to_floats conv (snd x)); [|now destruct Hx]. now destruct (fold_right _ _ m).
Qed.
Lemma to_floats_integral conv j : integral j -> to_floats conv j = Some j.
Proof.
  induction j using json_ind'; cbn [to_floats integral]; intros N; try reflexivity; try contradiction.
  - assert (E : fold_right (fun x r => match to_floats conv x, r with Some y, Some ys => Some (y :: ys) | _, _ => None end) (Some []) l = Some l); [|now rewrite E].
    induction H as [|x l Hx _ IH]; cbn [fold_right] in *; [reflexivity|]. destruct N as [Nx N]. rewrite (Hx Nx), (IH N). reflexivity.
  - assert (E : fold_right (fun (kv : string * json) r => match to_floats conv (snd kv), r with Some y, Some ys => Some ((fst kv, y) :: ys) | _, _ => None end) (Some []) m = Some m); [|now rewrite E].
    induction H as [|[k x] m Hx _ IH]; cbn [fold_right fst snd] in *; [reflexivity|]. destruct N as [Nx N]. rewrite (Hx Nx), (IH N). reflexivity.
Qed.
Lemma like_normal Num a : forall b, like Num a b -> like Num (normalize a) (normalize b).
Proof.
  induction a using json_ind'; intros b' A; inversion A; subst; cbn [normalize]; try exact A.
  - constructor. match goal with K : Forall2 (like Num) _ _ |- _ => clear A; rename K into A end. revert l' A. induction H as [|x l Hx _ IH]; intros l' A; inversion A; subst; cbn [map]; constructor; auto.
  - assert (A' := A). apply alike_obj_iff in A' as (N & N' & G). apply alike_obj_iff. split; [apply ksorted_nodup, ksorted_of_list|]. split; [apply ksorted_nodup, ksorted_of_list|].
    intros k. rewrite !get_of_list, !last_get_map, !last_get_nodup by assumption.
    specialize (G k). destruct (obj_get k m) as [v|] eqn:E, (obj_get k m') as [v'|]; cbn [both option_map] in *; try contradiction; [|exact I]. rewrite Forall_forall in H. apply obj_get_in in E. exact (H (k, v) E _ G).
Qed.
Lemma integral_in_arr l v : integral (JArr l) -> In v l -> integral v.
Proof. cbn [integral]. induction l as [|x l IH]; cbn [fold_right In]; [contradiction|]. intros [A B] [->|I]; auto. Qed.
Lemma integral_in_obj m k v : integral (JObj m) -> In (k, v) m -> integral v.
Proof. cbn [integral]. induction m as [|x m IH]; cbn [fold_right In]; [contradiction|]. intros [A B] [->|I]; auto. Qed.
Lemma roughly_exact a : forall b, roughly a b -> integral a -> alike a b.
Proof.
  induction a using json_ind'; intros b' A N; inversion A; subst; try constructor; try assumption; try contradiction.
  - match goal with K : Forall2 _ _ _ |- _ => clear A; rename K into A end. revert l' A N. induction H as [|x l Hx _ IH]; intros l' A N; inversion A; subst; constructor; cbn [integral fold_right] in N; destruct N; auto.
  - intros k v I. match goal with K : forall k v, In (k, v) m -> _ |- _ => destruct (K _ _ I) as (w & J & L) end. exists w. split; [exact J|]. rewrite Forall_forall in H. apply (H (k, v) I _ L). exact (integral_in_obj _ _ _ N I).
  - intros k v I. match goal with K : forall k v', In (k, v') m' -> _ |- _ => destruct (K _ _ I) as (w & J & L) end. exists w. split; [exact J|]. rewrite Forall_forall in H. apply (H (k, w) J _ L). exact (integral_in_obj _ _ _ N J).
Qed.

(** C120: whatever becomes of non-integer numbers when they are read (also if some are refused): a text that is no JSON stays refused; a
    text that is read gives the value of the model but for those numbers; if no number is refused no text is; and a text with integers
    only is read exactly as in the model. *)
Lemma c120_text_pf : forall conv s,
  (json_of_text s = None -> float_of_text conv s = None)
  /\ (forall j, float_of_text conv s = Some j -> exists j0, json_of_text s = Some j0 /\ roughly j0 j)
  /\ ((forall l, conv l <> None) -> float_of_text conv s = None -> json_of_text s = None)
  /\ (forall j0, parse_raw s = Some j0 -> integral j0 -> float_of_text conv s = json_of_text s).
Proof.
  intros conv s. unfold json_of_text, float_of_text. destruct (parse_raw s) as [j|]; cbn [option_map]; [|repeat split; try discriminate; auto].
  split; [discriminate|]. split.
  - intros j1 E. destruct (to_floats conv j) as [j'|] eqn:T; [|discriminate]. injection E as <-. exists (normalize j). split; [reflexivity|]. apply twin_roughly. now apply (to_floats_twin conv).
  - split.
    + intros C E. pose proof (to_floats_total conv j C). now destruct (to_floats conv j).
    + intros j0 E N. injection E as ->. now rewrite (to_floats_integral conv j0 N).
Qed.
(** C120: where a value holds integers only, being the same but for other numbers is being the same. *)
Lemma c120_integers_pf : forall a b, integral a -> roughly a b -> alike a b.
Proof. intros a b N R. now apply roughly_exact. Qed.
(** C120: request objects that differ in such numbers only, anywhere inside, are both refused with one error or give requests equal
    in every field. *)
Lemma c120_request_pf : forall up o o', roughly (JObj o) (JObj o') -> agree (like_request roughly) (aro_of_obj up o) (aro_of_obj up o').
Proof. exact request_like. Qed.
(** C120: the same for wallet metadata. *)
Lemma c120_metadata_pf : forall up o o', roughly (JObj o) (JObj o') -> agree (like_metadata roughly) (wm_of_obj up o) (wm_of_obj up o').
Proof. exact wallet_like. Qed.
(** C120: and the wallet's decision from its metadata is the same. *)
Lemma c120_gate_pf : forall w w' a a', like_metadata roughly w w' -> like_request roughly a a' -> validate_against_metadata w a = validate_against_metadata w' a'.
Proof. exact gate_like. Qed.
(** C120: so are the credential query but for numbers inside [meta], *)
Lemma c120_query_pf : forall a a', like_request roughly a a' -> both (agree (like_query roughly)) (aro_dcql a) (aro_dcql a').
Proof. exact query_like. Qed.
(** C120: and what the example wallet selects for it. *)
Lemma c120_matcher_pf : forall lower store q q', like_query roughly q q' -> match_query lower store q = match_query lower store q'.
Proof. exact matcher_like. Qed.
Lemma reads_like_items : reads (Num := fun _ _ => True) (Forall2 (like_item roughly)) items items.
Proof.
  apply reads_list. intros v v' A. pose proof (like_normal _ _ _ A) as B. destruct B; cbn [item_of_json agree like_item]; try reflexivity. now constructor.
Qed.
(** C120: a presentation is read from both or from neither, with the same items but for the numbers inside them. *)
Lemma c120_token_pf : forall j j', roughly j j' -> decides (like_token roughly) (vp_of_json j) (vp_of_json j').
Proof.
  intros j j' A. assert (A0 := A). destruct A as [| | | | | |m m' N N' F B]; try exact I. cbn [vp_of_json]. pose proof (token_spec m N) as S. pose proof (token_spec m' N') as S'.
  apply alike_obj_iff in A0 as (_ & _ & G). destruct (vp_of_entries m) as [t|], (vp_of_entries m') as [t'|]; cbn [decides].
  - intros id. specialize (S id). specialize (S' id). specialize (G id). destruct (obj_get id m) as [v|], (obj_get id m') as [v'|]; cbn [both] in G; try contradiction.
    + destruct S as (is & E & ->), S' as (is' & E' & ->). pose proof (reads_like_items v v' G) as R. rewrite E, E' in R. exact R.
    + rewrite S, S'. exact I.
  - destruct S' as (k & v' & e1 & I & E). destruct (B _ _ I) as (v & Iv & A). specialize (S k). rewrite (get_in _ _ _ N Iv) in S. destruct S as (is & Ei & _).
    pose proof (reads_like_items v v' A) as R. rewrite E, Ei in R. exact R.
  - destruct S as (k & v & e1 & I & E). destruct (F _ _ I) as (v' & Iv & A). specialize (S' k). rewrite (get_in _ _ _ N' Iv) in S'. destruct S' as (is & Ei & _).
    pose proof (reads_like_items v v' A) as R. rewrite E, Ei in R. exact R.
  - exact I.
Qed.
(** C120: but an object presented as a credential is not passed on as it was written: with numbers read as [f64] its 1.10 leaves as 1.1. *)
Lemma c120_rewritten_refuted_pf : exists conv s,
  (forall l l', conv l = Some l' -> conv l' = Some l')
  /\ option_map (rmap vp_print) (option_map vp_of_json (json_of_text s)) = Some (Ok s)
  /\ exists s', option_map (rmap vp_print) (option_map vp_of_json (float_of_text conv s)) = Some (Ok s') /\ s' <> s.
Proof.
  exists (fun l => Some (if String.eqb l "1.10" then "1.1" else l)), "{""q"":[{""n"":1.10}]}". split; [|split; [vm_compute; reflexivity|]].
  - intros l l' E. destruct (String.eqb_spec l "1.10") as [->|Hn]; injection E as <-; [reflexivity|]. apply String.eqb_neq in Hn. now rewrite Hn.
  - exists "{""q"":[{""n"":1.1}]}". split; [vm_compute; reflexivity|discriminate].
Qed.

(* ------------------------------------------------------------ witnesses *)
Definition short (l : string) : option string := if String.eqb l "1.10" then Some "1.1" else if String.eqb l "1e999" then None else Some l.
Definition toy_numbers : string :=
  "{""response_type"":""vp_token"",""response_uri"":""https://v.example/r"",""response_mode"":""direct_post"",""nonce"":""n"",""client_id"":""x509_san_dns:v.example"",""extra"":[1.10,{""deep"":2.5}],""dcql_query"":{""credentials"":[{""id"":""pid"",""format"":""dc+sd-jwt"",""meta"":{""vct_values"":[""pid""],""w"":1.10}}]}}".
Definition toy_request_as (r : string -> option json) : option aro := match r toy_numbers with Some (JObj o) => toy_reads o | _ => None end.
Example c120_text_ex :
  float_of_text short "[1.10,2]" = Some (JArr [JFloat "1.1"; JInt 2]) /\ float_of_text short "[1e999]" = None
  /\ json_of_text "[1e999]" = Some (JArr [JFloat "1e999"]) /\ float_of_text short "{""b"":1,""a"":[-5]}" = json_of_text "{""b"":1,""a"":[-5]}".
Proof. repeat split; vm_compute; reflexivity. Qed.
Example c120_integers_ex : integral (JArr [JInt 3; JObj [("a", JStr "1.10")]]) /\ ~ integral (JArr [JInt 3; JObj [("a", JFloat "1.10")]]).
Proof. cbn. tauto. Qed.
Example c120_request_ex :
  option_map (fun a => obj_get "extra" (ro_inner a)) (toy_request_as (float_of_text short)) = Some (Some (JArr [JFloat "1.1"; JObj [("deep", JFloat "2.5")]]))
  /\ option_map ro_nonce (toy_request_as (float_of_text short)) = Some "n" /\ option_map ro_nonce (toy_request_as json_of_text) = Some "n".
Proof. repeat split; vm_compute; reflexivity. Qed.
Example c120_metadata_ex :
  let o n := [("authorization_endpoint", JStr "openid4vp://"); ("vp_formats_supported", JObj [("mso_mdoc", JObj [("v", JFloat n)])])] in
  option_map (fun w => map fst (wm_formats w)) (toy_wallet_reads (o "1.10")) = Some [MsoMDoc] /\ option_map (fun w => map fst (wm_formats w)) (toy_wallet_reads (o "1.1")) = Some [MsoMDoc].
Proof. split; vm_compute; reflexivity. Qed.
Example c120_gate_ex :
  match toy_wallet_reads toy_wm_sorted, toy_request_as (float_of_text short) with Some w, Some a => validate_against_metadata w a | _, _ => Err "" end = Ok tt.
Proof. vm_compute. reflexivity. Qed.
Example c120_query_ex :
  option_map (fun a => match aro_dcql a with Some (Ok q) => map (fun c => obj_get "w" (cq_meta c)) (dq_credentials q) | _ => [] end) (toy_request_as (float_of_text short)) = Some [Some (JFloat "1.1")].
Proof. vm_compute. reflexivity. Qed.
Example c120_matcher_ex :
  option_map (fun a => match aro_dcql a with Some (Ok q) => match_query (fun s => s) [mk_credential "1" DcSdJwt (Some "pid") None "raw" []] q | _ => Err "" end) (toy_request_as (float_of_text short)) = Some (Ok [("pid", ["raw"])]).
Proof. vm_compute. reflexivity. Qed.
Example c120_token_ex :
  option_map vp_of_json (float_of_text short "{""q"":[{""n"":1.10},""x""]}") = Some (Ok [("q", [VpObject [("n", JFloat "1.1")]; VpString "x"])]).
Proof. vm_compute. reflexivity. Qed.
