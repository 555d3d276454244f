(** Facts about JSON values that are the same but for the order of members and the non-integer numbers. *)
From Coq Require Import Lia Sorting.Permutation.
From Verif Require Import Base BaseFacts Utf8 Json JsonFacts JsonText JsonTextFacts Serde Url Object Formats Params ParamFacts Metadata Dcql Effects Jwt Request Response
  Verify Jwe ExMatcher JsonOrder SpecOrder.

Lemma agree_bind {A B C D} (R : A -> B -> Prop) (S : C -> D -> Prop) x y f g :
  agree R x y -> (forall a b, R a b -> agree S (f a) (g b)) -> agree S (rbind x f) (rbind y g).
Proof. destruct x, y; cbn [agree rbind]; try contradiction; auto. Qed.
Lemma agree_map {A B C D} (R : A -> B -> Prop) (S : C -> D -> Prop) x y f g :
  agree R x y -> (forall a b, R a b -> S (f a) (g b)) -> agree S (rmap f x) (rmap g y).
Proof. destruct x, y; cbn [agree rmap]; try contradiction; auto. Qed.
Lemma agree_context {A B} (R : A -> B -> Prop) x y e : agree R x y -> agree R (context x e) (context y e).
Proof. destruct x, y; cbn [agree context]; auto; contradiction. Qed.
Lemma agree_eq {A} (x y : res A) : agree eq x y <-> x = y.
Proof. destruct x, y; cbn [agree]; split; congruence || tauto || discriminate. Qed.
Lemma Forall2_eq {A} (l l' : list A) : Forall2 eq l l' <-> l = l'.
Proof. split; [induction 1; congruence|intros <-; induction l; constructor; auto]. Qed.

Section Like.
Context {Num : string -> string -> Prop}.
Local Notation alike := (like Num).

(* ------------------------------------------------------------ like *)
Definition like_get (m m' : obj) : Prop := forall k, both alike (obj_get k m) (obj_get k m').
Lemma get_in k v m : NoDup (map fst m) -> In (k, v) m -> obj_get k m = Some v.
Proof.
  induction m as [|[k' w] m IH]; cbn [map fst obj_get]; intros N I; [contradiction|]. inversion_clear N as [|? ? A N']. destruct I as [E|I].
  - injection E as -> ->. now rewrite String.eqb_refl.
  - destruct (String.eqb_spec k k') as [->|]; [|auto]. destruct A. apply in_map_iff. exists (k', v). auto.
Qed.
Lemma like_get_iff m m' : NoDup (map fst m) -> NoDup (map fst m') ->
  (like_get m m' <-> (forall k v, In (k, v) m -> exists v', In (k, v') m' /\ alike v v') /\ (forall k v', In (k, v') m' -> exists v, In (k, v) m /\ alike v v')).
Proof.
  intros N N'. split.
  - intros G. split; intros k v I; specialize (G k).
    + rewrite (get_in _ _ _ N I) in G. destruct (obj_get k m') as [v'|] eqn:E; [|contradiction]. exists v'. split; [now apply obj_get_in|exact G].
    + rewrite (get_in _ _ _ N' I) in G. destruct (obj_get k m) as [v'|] eqn:E; [|contradiction]. exists v'. split; [now apply obj_get_in|exact G].
  - intros [F B] k. destruct (obj_get k m) as [v|] eqn:E.
    + apply obj_get_in in E. destruct (F _ _ E) as (v' & I & A). rewrite (get_in _ _ _ N' I). exact A.
    + destruct (obj_get k m') as [v'|] eqn:E'; [|exact I]. apply obj_get_in in E'. destruct (B _ _ E') as (v & I' & _). rewrite (get_in _ _ _ N I') in E. discriminate.
Qed.
Lemma alike_obj_iff m m' : alike (JObj m) (JObj m') <-> NoDup (map fst m) /\ NoDup (map fst m') /\ like_get m m'.
Proof.
  split.
  - intros A. inversion_clear A as [| | | | | |? ? N N' F B]. split; [exact N|]. split; [exact N'|]. apply like_get_iff; auto.
  - intros (N & N' & G). apply like_get_iff in G as [F B]; try assumption. now constructor.
Qed.

(* ------------------------------------------------------------ readers do not see the order *)
Definition reads {A B} (R : A -> B -> Prop) (f : json -> res A) (g : json -> res B) : Prop := forall v v', alike v v' -> agree R (f v) (g v').
Lemma reads_str : reads eq de_str de_str.
Proof. intros v v' A. destruct A; reflexivity. Qed.
Lemma reads_bool : reads eq de_bool de_bool.
Proof. intros v v' A. destruct A; reflexivity. Qed.
Lemma reads_obj : reads (fun o o' => alike (JObj o) (JObj o')) de_obj de_obj.
Proof. intros v v' A. destruct A; try reflexivity. cbn [de_obj as_obj ok_or agree]. now constructor. Qed.
Lemma reads_mapM {A B} (R : A -> B -> Prop) f g : reads R f g -> forall l l', Forall2 alike l l' -> agree (Forall2 R) (mapM f l) (mapM g l').
Proof.
  intros H l l' F. induction F as [|x y l l' X F IH]; cbn [mapM]; [constructor|]. eapply agree_bind; [exact (H _ _ X)|]. intros a b Rab. eapply agree_bind; [exact IH|]. intros u w U. cbn [agree]. now constructor.
Qed.
Lemma reads_list {A B} (R : A -> B -> Prop) f g : reads R f g -> reads (Forall2 R) (de_list f) (de_list g).
Proof. intros H v v' X. destruct X; try reflexivity. cbn [de_list]. now apply reads_mapM. Qed.
Lemma reads_eq {A} f : reads (@eq A) f f <-> (forall v v', alike v v' -> f v = f v').
Proof. split; intros H v v' X; apply agree_eq, H, X. Qed.
Lemma reads_list_eq {A} (f : json -> res A) : reads eq f f -> reads eq (de_list f) (de_list f).
Proof. intros H v v' X. pose proof (reads_list _ _ _ H v v' X) as Y. destruct (de_list f v), (de_list f v'); cbn [agree] in *; try contradiction; [now apply Forall2_eq|exact Y]. Qed.
Lemma reads_ne {A B} (R : A -> B -> Prop) f g : reads R f g -> reads (Forall2 R) (de_ne f) (de_ne g).
Proof. intros H v v' X. unfold de_ne. eapply agree_bind; [exact (reads_list _ _ _ H v v' X)|]. intros a b F. destruct F; cbn [ne_try_from agree]; [reflexivity|now constructor]. Qed.
Lemma reads_ne_eq {A} (f : json -> res A) : reads eq f f -> reads eq (de_ne f) (de_ne f).
Proof. intros H v v' X. pose proof (reads_ne _ _ _ H v v' X) as Y. destruct (de_ne f v), (de_ne f v'); cbn [agree] in *; try contradiction; [now apply Forall2_eq|exact Y]. Qed.
Definition flike (x y : fld) : Prop := match x, y with FVal v, FVal v' => alike v v' | FMissing, FMissing => True | FShort, FShort => True | _, _ => False end.
Lemma arr_like names : forall l l', Forall2 alike l l' -> Forall2 flike (arr_fields names l) (arr_fields names l').
Proof. induction names as [|n names IH]; intros l l' F; cbn [arr_fields]; [constructor|]. destruct F as [|x y l l' A F]; constructor; cbn [flike]; auto. Qed.
Lemma reads_fields names : reads (Forall2 flike) (de_fields names) (de_fields names).
Proof.
  intros v v' A. destruct A as [| | | | |l l' F|m m' N N' F B]; try reflexivity; cbn [de_fields].
  - assert (E : length l = length l') by (clear - F; induction F; cbn; congruence). rewrite <- E. destruct (Nat.leb (length l) (length names)); [|reflexivity]. cbn [agree]. now apply arr_like.
  - assert (G : like_get m m') by (apply like_get_iff; auto). cbn [agree]. induction names as [|n names IH]; cbn [map]; constructor; [|exact IH]. specialize (G n). destruct (obj_get n m), (obj_get n m'); cbn [both flike] in *; auto.
Qed.
Lemma nth_like i l l' : Forall2 flike l l' -> flike (nth_fld i l) (nth_fld i l').
Proof. unfold nth_fld. intros F. revert i. induction F as [|x y l l' A F IH]; intros [|i]; cbn [nth]; try exact I; auto. Qed.
Lemma req_like {A B} (R : A -> B -> Prop) f g x y : reads R f g -> flike x y -> agree R (f_req f x) (f_req g y).
Proof. intros H L. destruct x, y; cbn [flike f_req agree] in *; try contradiction; auto. Qed.
Lemma opt_like {A B} (R : A -> B -> Prop) f g x y : reads R f g -> flike x y -> agree (both R) (f_opt f x) (f_opt g y).
Proof.
  intros H L. destruct x as [v| |], y as [v'| |]; cbn [flike f_opt agree both] in *; try contradiction; auto.
  specialize (H v v' L). destruct L; cbn [de_opt agree both]; auto; eapply agree_map; eauto; intros a b Rab; exact Rab.
Qed.
Lemma opt_like_eq {A} (f : json -> res A) x y : reads eq f f -> flike x y -> f_opt f x = f_opt f y.
Proof.
  intros H L. pose proof (opt_like _ _ _ _ _ H L) as Y. destruct (f_opt f x) as [[a|]|], (f_opt f y) as [[b|]|]; cbn [agree both] in Y; try contradiction; congruence.
Qed.
Lemma req_like_eq {A} (f : json -> res A) x y : reads eq f f -> flike x y -> f_req f x = f_req f y.
Proof. intros H L. apply agree_eq. now apply req_like. Qed.
Lemma dflt_like {A B} (R : A -> B -> Prop) d d' f g x y : reads R f g -> R d d' -> flike x y -> agree R (f_dflt d f x) (f_dflt d' g y).
Proof. intros H D L. destruct x, y; cbn [flike f_dflt agree] in *; try contradiction; auto. Qed.

Lemma alike_length m m' : alike (JObj m) (JObj m') -> length m = length m'.
Proof.
  intros A. apply alike_obj_iff in A as (N & N' & G). rewrite <- (map_length fst m), <- (map_length fst m'). apply Permutation_length, NoDup_Permutation; try assumption.
  intros k. specialize (G k). destruct (obj_get k m) as [v|] eqn:E, (obj_get k m') as [v'|] eqn:E'; cbn [both] in G; try contradiction.
  - apply obj_get_in in E, E'. split; intros _; apply in_map_iff; [exists (k, v')|exists (k, v)]; auto.
  - apply obj_get_none in E, E'. tauto.
Qed.
Lemma alike_single k v m' : alike (JObj [(k, v)]) (JObj m') -> exists v', m' = [(k, v')] /\ alike v v'.
Proof.
  intros A. pose proof (alike_length _ _ A) as L. destruct m' as [|[k' v'] [|]]; try discriminate. apply alike_obj_iff in A as (_ & _ & G). specialize (G k). cbn [obj_get] in G. rewrite String.eqb_refl in G.
  destruct (String.eqb_spec k k') as [<-|]; [|contradiction]. exists v'. split; [reflexivity|exact G].
Qed.
Ltac scalar := intros v v' A; destruct A; reflexivity.
Lemma reads_cv : reads eq cv_of_json cv_of_json.
Proof. intros v v' A. destruct A; try reflexivity. now apply agree_eq. Qed.
Lemma reads_pe : reads eq pe_of_json pe_of_json.
Proof. intros v v' A. destruct A; try reflexivity. now apply agree_eq. Qed.
Lemma reads_at : reads eq at_of_json at_of_json.
Proof.
  intros v v' A. destruct A as [| | | | | |m m' N N' F B]; try reflexivity.
  pose proof (like_obj Num m m' N N' F B) as A. pose proof (alike_length _ _ A) as L. destruct m as [|[k v] [|]], m' as [|[k' v'] [|]]; try discriminate L; try reflexivity.
  - apply alike_single in A as (v'' & E & A). injection E as -> <-. destruct A; try reflexivity. cbn [at_of_json]. now apply agree_eq.
  - cbn [at_of_json]. destruct v, v'; reflexivity.
Qed.
Ltac fields F :=
  repeat first
    [ rewrite (opt_like_eq de_str _ _ reads_str (nth_like _ _ _ F))
    | rewrite (opt_like_eq de_bool _ _ reads_bool (nth_like _ _ _ F)) ].
Lemma reads_claims : reads eq claims_of_json claims_of_json.
Proof.
  intros v v' A. unfold claims_of_json. eapply agree_bind; [exact (reads_fields _ v v' A)|]. intros fs fs' F. apply agree_eq.
  rewrite (opt_like_eq de_str _ _ reads_str (nth_like 0 _ _ F)), (req_like_eq _ _ _ (reads_ne_eq _ reads_pe) (nth_like 1 _ _ F)), (opt_like_eq _ _ _ (reads_ne_eq _ reads_cv) (nth_like 2 _ _ F)), (opt_like_eq de_bool _ _ reads_bool (nth_like 3 _ _ F)).
  reflexivity.
Qed.
Lemma reads_auths : reads eq auths_of_json auths_of_json.
Proof.
  intros v v' A. unfold auths_of_json. eapply agree_bind; [exact (reads_fields _ v v' A)|]. intros fs fs' F. apply agree_eq.
  rewrite (req_like_eq _ _ _ reads_at (nth_like 0 _ _ F)), (req_like_eq _ _ _ (reads_ne_eq _ reads_str) (nth_like 1 _ _ F)). reflexivity.
Qed.
Lemma reads_sets : reads eq sets_of_json sets_of_json.
Proof.
  intros v v' A. unfold sets_of_json. eapply agree_bind; [exact (reads_fields _ v v' A)|]. intros fs fs' F. apply agree_eq.
  rewrite (req_like_eq _ _ _ (reads_ne_eq _ (reads_list_eq _ reads_str)) (nth_like 0 _ _ F)), (opt_like_eq de_bool _ _ reads_bool (nth_like 1 _ _ F)). reflexivity.
Qed.
Lemma reads_designation : reads eq designation_of_json designation_of_json.
Proof. intros v v' A. apply agree_eq. unfold designation_of_json. f_equal. apply agree_eq, reads_str, A. Qed.
Lemma alike_nil : alike (JObj []) (JObj []).
Proof. constructor; cbn; try constructor; intros; contradiction. Qed.
Lemma reads_cred : reads (like_cred alike) cred_of_json cred_of_json.
Proof.
  intros v v' A. unfold cred_of_json. eapply agree_bind; [exact (reads_fields _ v v' A)|]. intros fs fs' F.
  rewrite (req_like_eq de_str _ _ reads_str (nth_like 0 _ _ F)), (req_like_eq _ _ _ reads_designation (nth_like 1 _ _ F)).
  eapply (agree_bind eq); [now apply agree_eq|]. intros i ? <-. eapply (agree_bind eq); [now apply agree_eq|]. intros f ? <-.
  eapply agree_bind; [exact (dflt_like _ _ _ _ _ _ _ reads_obj alike_nil (nth_like 2 _ _ F))|]. intros m m' M.
  rewrite (opt_like_eq _ _ _ (reads_ne_eq _ reads_claims) (nth_like 3 _ _ F)), (opt_like_eq _ _ _ (reads_ne_eq _ (reads_list_eq _ reads_str)) (nth_like 4 _ _ F)),
    (opt_like_eq _ _ _ (reads_ne_eq _ reads_auths) (nth_like 5 _ _ F)), (opt_like_eq de_bool _ _ reads_bool (nth_like 6 _ _ F)), (opt_like_eq de_bool _ _ reads_bool (nth_like 7 _ _ F)).
  do 5 (eapply (agree_bind eq); [now apply agree_eq|]; intros ? ? <-). cbn [agree]. unfold like_cred. cbn. auto 10.
Qed.
Lemma reads_dcql : reads (like_query alike) dcql_of_json dcql_of_json.
Proof.
  intros v v' A. unfold dcql_of_json. eapply agree_bind; [exact (reads_fields _ v v' A)|]. intros fs fs' F.
  eapply agree_bind; [exact (req_like _ _ _ _ _ (reads_ne _ _ _ reads_cred) (nth_like 0 _ _ F))|]. intros c c' C.
  rewrite (opt_like_eq _ _ _ (reads_ne_eq _ reads_sets) (nth_like 1 _ _ F)). eapply (agree_bind eq); [now apply agree_eq|]. intros s ? <-. split; [exact C|reflexivity].
Qed.
Lemma payload_like v v' : alike v v' -> agree (like_payload alike) (payload_of_json v) (payload_of_json v').
Proof.
  intros A. assert (A0 := A). destruct A as [| | | | |l l' F|m m' N N' F B]; try exact A0.
  pose proof (alike_length _ _ A0) as L. destruct m as [|[k v] [|p m]], m' as [|[k' v'] [|p' m']]; try discriminate L.
  - exact A0.
  - destruct (alike_single _ _ _ A0) as (v'' & E & A). injection E as -> <-. cbn [payload_of_json].
      rewrite (proj1 (agree_eq _ _) (reads_list_eq _ reads_str v v' A)). destruct (de_list de_str v') as [l|]; [|exact A0]. destruct (String.eqb k "alg_values"); [reflexivity|]. destruct (String.eqb k "proof_type_values"); [reflexivity|exact A0].
  - cbn [payload_of_json]. destruct v, v'; exact A0.
Qed.

(* ------------------------------------------------------------ format maps *)
Lemma designation_eqb_eq a b : designation_eqb a b = true <-> a = b.
Proof.
  destruct a, b; cbn [designation_eqb]; split; intros H; try reflexivity; try discriminate H.
  - apply String.eqb_eq in H. now subst.
  - injection H as ->. apply String.eqb_refl.
Qed.
Definition pay (v : json) : payload := match payload_of_json v with Ok p => p | Err _ => OtherPayload v end.
Lemma pay_ok v : payload_of_json v = Ok (pay v).
Proof.
  unfold pay. destruct v as [| | | | | |[|[k v] [|]]]; try reflexivity. cbn [payload_of_json].
  destruct (de_list de_str v) as [l|]; [|reflexivity]. destruct (String.eqb k "alg_values"); [reflexivity|]. now destruct (String.eqb k "proof_type_values").
Qed.
Lemma formats_ok m : mapM (fun kv => let? p := payload_of_json (snd kv) in Ok (from_name (fst kv), p)) m = Ok (map (fun kv : string * json => (from_name (fst kv), pay (snd kv))) m).
Proof. induction m as [|[k v] m IH]; [reflexivity|]. cbn [mapM map fst snd]. rewrite pay_ok. cbn [rbind]. now rewrite IH. Qed.
Lemma fm_get_insert d e p m : fm_get d (fm_insert e p m) = if designation_eqb d e then Some p else fm_get d m.
Proof.
  induction m as [|[d' q] m IH]; cbn [fm_insert fm_get]; [reflexivity|]. destruct (designation_eqb e d') eqn:E; cbn [fm_get].
  - apply designation_eqb_eq in E as <-. now destruct (designation_eqb d e).
  - rewrite IH. destruct (designation_eqb d d') eqn:D, (designation_eqb d e) eqn:D'; try reflexivity.
    apply designation_eqb_eq in D as <-, D' as <-. rewrite (proj2 (designation_eqb_eq d d) eq_refl) in E. discriminate.
Qed.
Lemma fm_fold d (m : obj) : NoDup (map fst m) -> forall acc,
  fm_get d (fold_left (fun acc e => fm_insert (fst e) (snd e) acc) (map (fun kv : string * json => (from_name (fst kv), pay (snd kv))) m) acc)
  = match (if designation_eqb d (from_name (name d)) then obj_get (name d) m else None) with Some v => Some (pay v) | None => fm_get d acc end.
Proof.
  induction m as [|[k v] m IH]; intros N acc; cbn [map fst snd fold_left obj_get]; [now destruct (designation_eqb d (from_name (name d)))|].
  inversion_clear N as [|? ? A N']. rewrite IH by assumption. rewrite fm_get_insert. cbn [fst snd]. destruct (designation_eqb d (from_name (name d))) eqn:C.
  - destruct (String.eqb_spec (name d) k) as [E|E].
    + rewrite E in *. replace (obj_get k m) with (@None json); [now rewrite C|]. symmetry. apply obj_get_none. exact A.
    + destruct (obj_get (name d) m); [reflexivity|]. destruct (designation_eqb d (from_name k)) eqn:D; [|reflexivity]. apply designation_eqb_eq in D. destruct E. rewrite D. apply name_from.
  - destruct (designation_eqb d (from_name k)) eqn:D; [|reflexivity]. apply designation_eqb_eq in D. rewrite D, name_from in C. now rewrite (proj2 (designation_eqb_eq _ _) eq_refl) in C.
Qed.
Lemma pay_like v v' : alike v v' -> (like_payload alike) (pay v) (pay v').
Proof. intros A. pose proof (payload_like v v' A) as H. rewrite !pay_ok in H. exact H. Qed.
Lemma reads_formats : reads (like_formats alike) format_map_of_json format_map_of_json.
Proof.
  intros v v' A. assert (A0 := A). destruct A as [| | | | | |m m' N N' F B]; try reflexivity. cbn [format_map_of_json]. rewrite !formats_ok. cbn [rbind agree]. intros d.
  rewrite !fm_fold by assumption. destruct (designation_eqb d (from_name (name d))); [|exact I]. apply alike_obj_iff in A0 as (_ & _ & G). specialize (G (name d)).
  destruct (obj_get (name d) m), (obj_get (name d) m'); cbn [both] in *; auto. now apply pay_like.
Qed.

(* ------------------------------------------------------------ parameters *)
Lemma get_like {T} (R : T -> T -> Prop) (P : tparam T) o o' : reads R (tp_of P) (tp_of P) -> alike (JObj o) (JObj o') -> both (agree R) (uo_get P o) (uo_get P o').
Proof. intros H A. apply alike_obj_iff in A as (_ & _ & G). specialize (G (tp_key P)). unfold uo_get. destruct (obj_get (tp_key P) o), (obj_get (tp_key P) o'); cbn [both] in *; auto. Qed.
Lemma get_like_eq {T} (P : tparam T) o o' : reads eq (tp_of P) (tp_of P) -> alike (JObj o) (JObj o') -> uo_get P o = uo_get P o'.
Proof.
  intros H A. pose proof (get_like eq P o o' H A) as G. destruct (uo_get P o), (uo_get P o'); cbn [both] in G; try contradiction; [|reflexivity]. f_equal. now apply agree_eq.
Qed.
Lemma default_like_eq {T} (P : tparam T) d o o' : reads eq (tp_of P) (tp_of P) -> alike (JObj o) (JObj o') -> uo_get_or_default P d o = uo_get_or_default P d o'.
Proof.
  intros H A. pose proof (get_like_eq P o o' H A) as G. unfold uo_get, uo_get_or_default in *. destruct (obj_get (tp_key P) o), (obj_get (tp_key P) o'); congruence.
Qed.
Lemma parsing_like {T} (R : T -> T -> Prop) x y : both (agree R) x y -> agree R (parsing_error x) (parsing_error y).
Proof. destruct x as [[|]|], y as [[|]|]; cbn [both agree parsing_error]; auto; contradiction. Qed.
Lemma reads_url up : reads eq (de_url up) (de_url up).
Proof. intros v v' A. apply agree_eq. unfold de_url. now rewrite (proj1 (agree_eq _ _) (reads_str v v' A)). Qed.
Lemma reads_mapped {T} (f : string -> T) : reads eq (fun j => rmap f (de_str j)) (fun j => rmap f (de_str j)).
Proof. intros v v' A. apply agree_eq. now rewrite (proj1 (agree_eq _ _) (reads_str v v' A)). Qed.
Lemma reads_keys : reads (Forall2 (fun o o' => alike (JObj o) (JObj o'))) (tp_of p_jwks) (tp_of p_jwks).
Proof. intros v v' A. cbn [p_jwks tp_of]. eapply agree_bind; [exact (reads_fields _ v v' A)|]. intros fs fs' F. apply req_like; [|exact (nth_like 0 _ _ F)]. apply reads_list, reads_obj. Qed.



Lemma metadata_like a a' : alike (JObj (ro_inner a)) (JObj (ro_inner a')) ->
  agree (fun o o' => alike (JObj o) (JObj o')) (resolve_client_metadata a) (resolve_client_metadata a').
Proof.
  intros A. unfold resolve_client_metadata, aro_get. pose proof (get_like _ p_client_metadata _ _ reads_obj A) as G.
  destruct (uo_get p_client_metadata (ro_inner a)), (uo_get p_client_metadata (ro_inner a')); cbn [both] in G; try contradiction; [exact G|exact alike_nil].
Qed.
Lemma key_like k o o' : alike (JObj o) (JObj o') -> key_str k o = key_str k o'.
Proof. intros A. apply alike_obj_iff in A as (_ & _ & G). specialize (G k). unfold key_str. destruct (obj_get k o), (obj_get k o'); cbn [both] in G; try contradiction; [|reflexivity]. now destruct G. Qed.
Lemma algs_like ks ks' : Forall2 (fun o o' => alike (JObj o) (JObj o')) ks ks' -> encryption_algs ks = encryption_algs ks'.
Proof.
  unfold encryption_algs. induction 1 as [|k k' ks ks' A F IH]; [reflexivity|]. cbn [filter].
  assert (E : marked_enc k = marked_enc k') by (unfold marked_enc; now rewrite (key_like "use" k k' A)). rewrite E.
  destruct (marked_enc k'); cbn [flat_map]; [|exact IH]. now rewrite (key_like "alg" k k' A), IH.
Qed.


Lemma request_like : forall up o o', alike (JObj o) (JObj o') -> agree (like_request alike) (aro_of_obj up o) (aro_of_obj up o').
Proof.
  intros up o o' A. unfold aro_of_obj.
  rewrite (get_like_eq p_client_id o o' reads_str A), (get_like_eq (p_redirect_uri up) o o' (reads_url up) A), (get_like_eq (p_response_uri up) o o' (reads_url up) A),
    (default_like_eq p_response_mode default_mode o o' (reads_mapped mode_of_string) A), (get_like_eq p_response_type o o' (reads_mapped rtype_of_string) A), (get_like_eq p_nonce o o' reads_str A).
  eapply (agree_bind eq); [now apply agree_eq|]. intros cid ? <-. cbv zeta.
  do 4 (eapply (agree_bind eq); [now apply agree_eq|]; intros ? ? <-). cbn [agree]. unfold like_request. cbn [ro_inner ro_client_id ro_scheme ro_mode ro_type ro_return ro_nonce]. auto 10.
Qed.
Lemma wallet_like : forall up o o', alike (JObj o) (JObj o') -> agree (like_metadata alike) (wm_of_obj up o) (wm_of_obj up o').
Proof.
  intros up o o' A. unfold wm_of_obj. rewrite (get_like_eq (p_authorization_endpoint up) o o' (reads_url up) A).
  eapply (agree_bind eq); [now apply agree_eq|]. intros ep ? <-. eapply agree_bind; [apply parsing_like, (get_like (like_formats alike) p_vp_formats_supported o o' reads_formats A)|].
  intros fm fm' F. cbn [agree]. unfold like_metadata. auto.
Qed.
Lemma gate_like : forall w w' a a', (like_metadata alike) w w' -> (like_request alike) a a' -> validate_against_metadata w a = validate_against_metadata w' a'.
Proof.
  intros w w' a a' (W & _ & _) (A & _ & S & _). apply agree_eq. unfold validate_against_metadata, aro_get. rewrite S.
  rewrite (default_like_eq p_client_id_prefixes default_prefixes _ _ (reads_list_eq _ reads_str) W), (get_like_eq p_response_mode _ _ (reads_mapped mode_of_string) A),
    (get_like_eq p_encryption_algs _ _ (reads_list_eq _ reads_str) W), (get_like_eq p_encryption_encs _ _ (reads_list_eq _ reads_str) W).
  eapply (agree_bind eq); [now apply agree_eq|]. intros _ _ _. eapply agree_bind; [exact (metadata_like a a' A)|]. intros cm cm' C.
  do 2 (eapply (agree_bind eq); [now apply agree_eq|]; intros ? ? <-). match goal with |- agree _ (if ?b then _ else _) _ => destruct b; [|reflexivity] end.
  eapply (agree_bind (Forall2 (fun o o' => alike (JObj o) (JObj o')))).
  - pose proof (get_like _ p_jwks cm cm' reads_keys C) as G. destruct (uo_get p_jwks cm), (uo_get p_jwks cm'); cbn [both] in G; try contradiction; [|reflexivity]. now apply agree_context.
  - intros ks ks' K. rewrite (algs_like _ _ K), (default_like_eq p_response_encs default_encs cm cm' (reads_list_eq _ reads_str) C). now apply agree_eq.
Qed.
Lemma query_like : forall a a', (like_request alike) a a' -> both (agree (like_query alike)) (aro_dcql a) (aro_dcql a').
Proof. intros a a' (A & _). unfold aro_dcql, aro_get. apply get_like; [exact reads_dcql|exact A]. Qed.
Lemma matcher_like : forall lower store q q', (like_query alike) q q' -> match_query lower store q = match_query lower store q'.
Proof.
  intros lower store q q' [F _]. unfold match_query. f_equal.
  cut (forall s, match_all lower store (dq_credentials q) s = match_all lower store (dq_credentials q') s); [auto|].
  induction F as [|c c' l l' (M & I & Fm & C & _) F IH]; intros s; cbn [match_all]; [reflexivity|].
  assert (E : match_credential lower store c = match_credential lower store c').
  { unfold match_credential, vct_values, doctype_value, required_claims. rewrite Fm, C. apply alike_obj_iff in M as (_ & _ & G). f_equal.
    assert (D : match obj_get "doctype_value" (cq_meta c) with Some v => as_str v | None => None end = match obj_get "doctype_value" (cq_meta c') with Some v => as_str v | None => None end).
    { specialize (G "doctype_value"). destruct (obj_get "doctype_value" (cq_meta c)), (obj_get "doctype_value" (cq_meta c')); cbn [both] in G; try contradiction; [|reflexivity]. now destruct G. }
    rewrite D. specialize (G "vct_values"). destruct (obj_get "vct_values" (cq_meta c)) as [v|], (obj_get "vct_values" (cq_meta c')) as [v'|]; cbn [both] in G; try contradiction; [|reflexivity].
    destruct G as [| | | | |x x' X|]; try reflexivity. f_equal.
    assert (V : flat_map (fun v => match as_str v with Some s => [s] | None => [] end) x = flat_map (fun v => match as_str v with Some s => [s] | None => [] end) x').
    { induction X as [|y y' x x' Y X IHX]; [reflexivity|]. cbn [flat_map]. rewrite IHX. now destruct Y. }
    now rewrite V. }
  rewrite E, I. destruct (match_credential lower store c'); cbn [rbind]; auto.
Qed.
End Like.
