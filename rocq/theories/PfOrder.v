(** Proofs about the order of the members of JSON objects. *)
From Coq Require Import Lia Sorting.Permutation.
From Verif Require Import Base BaseFacts Utf8 Json JsonFacts JsonText JsonTextFacts Serde Url Object Formats Params ParamFacts Metadata Dcql Effects Jwt Request Response
  Verify Jwe ExMatcher JsonOrder SpecOrder LikeFacts.

Lemma alike_sym a : forall b, alike a b -> alike b a.
Proof.
  induction a using json_ind'; intros b' A; inversion A; subst; try constructor; try assumption; try reflexivity.
  - match goal with K : Forall2 alike _ _ |- _ => clear A; rename K into A end. revert l' A. induction H as [|x l Hx _ IH]; intros l' A; inversion A; subst; constructor; auto.
  - rewrite Forall_forall in H. intros k v I. match goal with K : forall k v', In (k, v') m' -> _ |- _ => destruct (K _ _ I) as (w & J & L) end. exists w. split; [exact J|]. exact (H (k, w) J _ L).
  - rewrite Forall_forall in H. intros k v I. match goal with K : forall k v, In (k, v) m -> _ |- _ => destruct (K _ _ I) as (w & J & L) end. exists w. split; [exact J|]. exact (H (k, v) I _ L).
Qed.
Lemma alike_trans a : forall b c, alike a b -> alike b c -> alike a c.
Proof.
  induction a using json_ind'; intros y1 y2 A B; inversion A; subst; inversion B; subst; try constructor; try assumption; try reflexivity.
  - match goal with K : Forall2 alike l _, L : Forall2 alike _ _ |- _ => clear A B; rename K into A; revert A end.
    match goal with |- Forall2 alike l ?l1 -> Forall2 alike l ?l2 => match goal with L : Forall2 alike l1 l2 |- _ => revert L; generalize l1, l2 end end.
    induction H as [|x l Hx _ IH]; intros l1 l2 L A; inversion A; subst; inversion L; subst; constructor; eauto.
  - intros k v I. match goal with K : forall k v, In (k, v) m -> _ |- _ => destruct (K _ _ I) as (w & J & L) end.
    match goal with K : forall k v, In (k, v) m' -> exists v', In _ ?m2 /\ _, G : In (k, w) m' |- exists v', In _ ?m2 /\ _ => destruct (K _ _ G) as (u & J' & L') end.
    exists u. split; [exact J'|]. rewrite Forall_forall in H. exact (H (k, v) I _ _ L L').
  - intros k v I. match goal with K : forall k v', In (k, v') ?m2 -> exists v, In (k, v) m' /\ _, I : In _ ?m2 |- _ => destruct (K _ _ I) as (w & J & L) end.
    match goal with K : forall k v', In (k, v') m' -> exists v, In (k, v) m /\ _ |- _ => destruct (K _ _ J) as (u & J' & L') end.
    exists u. split; [exact J'|]. rewrite Forall_forall in H. exact (H (k, u) J' _ _ L' L).
Qed.

(* ------------------------------------------------------------ the maps *)
Lemma io_get_insert k v m x : obj_get x (io_insert k v m) = if String.eqb x k then Some v else obj_get x m.
Proof.
  induction m as [|[k' w] m IH]; cbn [io_insert obj_get]; [reflexivity|]. destruct (String.eqb_spec k k') as [->|Hn]; cbn [obj_get].
  - destruct (String.eqb x k'); reflexivity.
  - rewrite IH. destruct (String.eqb_spec x k') as [->|]; [|reflexivity]. now rewrite (proj2 (String.eqb_neq _ _) (not_eq_sym Hn)).
Qed.
Lemma io_insert_keys k v m x : In x (map fst (io_insert k v m)) <-> x = k \/ In x (map fst m).
Proof.
  induction m as [|[k' w] m IH]; cbn [io_insert map fst In]; [intuition|]. destruct (String.eqb_spec k k') as [->|Hn]; cbn [map fst In]; [intuition|]. rewrite IH. intuition.
Qed.
Lemma io_insert_nodup k v m : NoDup (map fst m) -> NoDup (map fst (io_insert k v m)).
Proof.
  induction m as [|[k' w] m IH]; cbn [io_insert map fst]; intros N; [repeat constructor; easy|]. inversion_clear N as [|? ? A N'].
  destruct (String.eqb_spec k k') as [->|Hn]; cbn [map fst]; constructor; auto. rewrite io_insert_keys. intros [->|I]; auto.
Qed.
Lemma swap_perm {A} (d : A) r : r <> [] -> Permutation (last r d :: removelast r) r.
Proof. intros H. rewrite (app_removelast_last d H) at 3. apply Permutation_cons_append. Qed.
Lemma io_remove_perm k m : exists m1 m2, (m = m1 ++ m2)%list /\ ~ In k (map fst m1)
  /\ ((m2 = [] /\ io_remove k m = m) \/ exists v r, m2 = (k, v) :: r /\ Permutation (io_remove k m) (m1 ++ r)).
Proof.
  induction m as [|[k' w] m IH]; [exists [], []; cbn; intuition|]. cbn [io_remove]. destruct (String.eqb_spec k k') as [->|Hn].
  - exists [], ((k', w) :: m). cbn [app map In]. split; [reflexivity|]. split; [easy|]. right. exists w, m. split; [reflexivity|]. destruct m as [|p m]; [constructor|]. now apply swap_perm.
  - destruct IH as (m1 & m2 & -> & F & D). exists ((k', w) :: m1), m2. cbn [app map fst In]. split; [reflexivity|]. split; [intros [E|I]; auto|].
    destruct D as [[-> E]|(v & r & -> & P)]; [left; now rewrite E|]. right. exists v, r. split; [reflexivity|]. now constructor.
Qed.
Lemma io_remove_spec k m : NoDup (map fst m) -> NoDup (map fst (io_remove k m)) /\ forall x, obj_get x (io_remove k m) = if String.eqb x k then None else obj_get x m.
Proof.
  intros N. destruct (io_remove_perm k m) as (m1 & m2 & E & F & [[-> R]|(v & r & -> & P)]).
  - rewrite R. split; [exact N|]. intros x. destruct (String.eqb_spec x k) as [->|]; [|reflexivity]. apply obj_get_none. now rewrite E, app_nil_r.
  - subst m. rewrite map_app in N. cbn [map fst] in N. pose proof (NoDup_remove _ _ _ N) as [N1 NI]. rewrite <- map_app in N1, NI.
    split; [eapply Permutation_NoDup; [apply Permutation_map, Permutation_sym, P|exact N1]|]. intros x.
    assert (NR : NoDup (map fst (io_remove k (m1 ++ (k, v) :: r)))) by (eapply Permutation_NoDup; [apply Permutation_map, Permutation_sym, P|exact N1]).
    rewrite (obj_get_perm _ _ x P NR). destruct (String.eqb_spec x k) as [->|Hn]; [now apply obj_get_none|]. clear - Hn.
    induction m1 as [|[k' w] m1 IH]; cbn [app obj_get]; [now rewrite (proj2 (String.eqb_neq _ _) Hn)|]. now rewrite IH.
Qed.
Lemma io_of_list_spec l : NoDup (map fst (io_of_list l)) /\ forall k, obj_get k (io_of_list l) = last_get k l.
Proof.
  assert (G : forall l m, NoDup (map fst m) -> NoDup (map fst (fold_left (fun m kv => io_insert (fst kv) (snd kv) m) l m))
    /\ forall k, obj_get k (fold_left (fun m kv => io_insert (fst kv) (snd kv) m) l m) = match last_get k l with Some v => Some v | None => obj_get k m end).
  { clear. induction l as [|[k v] l IH]; intros m N; cbn [fold_left last_get fst snd]; [auto|]. destruct (IH _ (io_insert_nodup k v m N)) as [A B]. split; [exact A|].
    intros x. rewrite B, io_get_insert. destruct (last_get x l); [reflexivity|]. destruct (String.eqb x k); reflexivity. }
  destruct (G l [] ltac:(constructor)) as [A B]. split; [exact A|]. intros k. unfold io_of_list. rewrite B. destruct (last_get k l); reflexivity.
Qed.
Lemma last_get_map f k l : last_get k (map (fun kv : string * json => (fst kv, f (snd kv))) l) = option_map f (last_get k l).
Proof. induction l as [|[k' v] l IH]; cbn [map last_get fst snd]; [reflexivity|]. rewrite IH. destruct (last_get k l); cbn [option_map]; [reflexivity|]. destruct (String.eqb k k'); reflexivity. Qed.
Lemma last_get_in k l v : last_get k l = Some v -> In (k, v) l.
Proof.
  induction l as [|[k' w] l IH]; cbn [last_get]; [discriminate|]. destruct (last_get k l) as [u|]; intros E; [right; auto|]. destruct (String.eqb_spec k k') as [->|]; [|discriminate]. injection E as ->. now left.
Qed.
(** The two readings of one text. *)
Lemma normalize_alike j : alike (normalize j) (io_normalize j).
Proof.
  induction j using json_ind'; cbn [normalize io_normalize]; try constructor; try reflexivity.
  - induction H; cbn [map]; constructor; auto.
  - apply ksorted_nodup, ksorted_of_list.
  - apply io_of_list_spec.
  - intros k v I. apply (get_in _ _ _ (ksorted_nodup _ (ksorted_of_list _))) in I. rewrite get_of_list, last_get_map in I. destruct (last_get k m) as [w|] eqn:E; [|discriminate].
    injection I as <-. exists (io_normalize w). split; [|rewrite Forall_forall in H; exact (H (k, w) (last_get_in _ _ _ E))]. apply obj_get_in. rewrite (proj2 (io_of_list_spec _)), last_get_map, E. reflexivity.
  - intros k v I. apply (get_in _ _ _ (proj1 (io_of_list_spec _))) in I. rewrite (proj2 (io_of_list_spec _)), last_get_map in I. destruct (last_get k m) as [w|] eqn:E; [|discriminate].
    injection I as <-. exists (normalize w). split; [|rewrite Forall_forall in H; exact (H (k, w) (last_get_in _ _ _ E))]. apply obj_get_in. rewrite get_of_list, last_get_map, E. reflexivity.
Qed.
(** Values that are alike are the same to the map that sorts. *)
Lemma alike_normal a : forall b, alike a b -> normalize a = normalize b.
Proof.
  induction a using json_ind'; intros b' A; inversion A; subst; cbn [normalize]; try reflexivity.
  - f_equal. match goal with K : Forall2 alike _ _ |- _ => clear A; rename K into A end. revert l' A. induction H as [|x l Hx _ IH]; intros l' A; inversion A; subst; cbn [map]; f_equal; auto.
  - f_equal. assert (A' := A). apply alike_obj_iff in A' as (N & N' & G). apply ksorted_ext; try apply ksorted_of_list. intros k. rewrite !get_of_list, !last_get_map, !last_get_nodup by assumption.
    specialize (G k). destruct (obj_get k m) as [v|] eqn:E, (obj_get k m') as [v'|]; cbn [both] in G; try contradiction; [|reflexivity]. cbn [option_map]. f_equal. rewrite Forall_forall in H. apply obj_get_in in E. exact (H (k, v) E _ G).
Qed.
Lemma alike_text_ok a : forall b, alike a b -> jtext_ok a = true -> jtext_ok b = true.
Proof.
  induction a using json_ind'; intros b' A; inversion A; subst; cbn [jtext_ok]; try tauto.
  - match goal with K : Forall2 alike _ _ |- _ => clear A; rename K into A end. revert l' A. induction H as [|x l Hx _ IH]; intros l' A; inversion A; subst; cbn [forallb]; [reflexivity|].
    rewrite !andb_true_iff. intros [T1 T2]. split; eauto.
  - rewrite !forallb_forall. intros T [k v'] I. match goal with K : forall k v', In (k, v') m' -> _ |- _ => destruct (K _ _ I) as (w & J & L) end.
    pose proof (T _ J) as U. cbn [fst snd] in *. apply andb_true_iff in U as [U1 U2]. rewrite U1. rewrite Forall_forall in H. exact (H (k, w) J _ L U2).
Qed.
Lemma max_le (l : list nat) n : (forall x, In x l -> x <= n) -> fold_right Nat.max 0 l <= n.
Proof. induction l as [|x l IH]; cbn [fold_right]; intros H; [lia|]. specialize (IH (fun y I => H y (or_intror I))). specialize (H x (or_introl eq_refl)). lia. Qed.
Lemma le_max (l : list nat) x : In x l -> x <= fold_right Nat.max 0 l.
Proof. induction l as [|y l IH]; cbn [fold_right]; intros I; [contradiction|]. destruct I as [->|I]; [lia|]. specialize (IH I). lia. Qed.
Lemma alike_depth a : forall b, alike a b -> jdepth b <= jdepth a.
Proof.
  induction a using json_ind'; intros b' A; inversion A; subst; cbn [jdepth]; try lia; apply le_n_S.
  - match goal with K : Forall2 alike _ _ |- _ => clear A; rename K into A end. revert l' A. induction H as [|x l Hx _ IH]; intros l' A; inversion A; subst; cbn [map fold_right]; [lia|].
    match goal with L : alike x _ |- _ => specialize (Hx _ L) end. match goal with L : Forall2 alike l _ |- _ => specialize (IH _ L) end. lia.
  - apply max_le. intros d I. apply in_map_iff in I as ((k & v') & <- & I). match goal with K : forall k v', In (k, v') m' -> _ |- _ => destruct (K _ _ I) as (w & J & L) end.
    rewrite Forall_forall in H. pose proof (H (k, w) J _ L) as D. cbn [snd] in *. etransitivity; [exact D|]. apply le_max. apply in_map_iff. exists (k, w). auto.
Qed.
Lemma writable_iff j : writable j <-> jtext_ok j = true /\ jdepth j <= 127.
Proof. split; [apply parse_raw_ok|]. intros [A B]. now apply parse_raw_print. Qed.
Lemma alike_writable a b : alike a b -> writable a -> writable b.
Proof. rewrite !writable_iff. intros A [T D]. split; [eapply alike_text_ok; eauto|]. pose proof (alike_depth _ _ A). lia. Qed.
Lemma alike_read a b : alike a b -> writable a -> json_of_text (jprint a) = Some (normalize a) /\ json_of_text (jprint b) = Some (normalize a).
Proof.
  intros A W. pose proof (alike_writable _ _ A W) as W'. unfold writable, json_of_text in *. rewrite W, W'. cbn [option_map]. split; [reflexivity|]. f_equal. symmetry. now apply alike_normal.
Qed.

(* ------------------------------------------------------------ theorems *)
(** C119: an object built by inserting and removing members holds the same members under the same names, whether its map keeps the
    names sorted or in order of insertion, whatever the calls. *)
Lemma c119_objects_pf : forall cs cs', Forall2 same_call cs cs' ->
  alike (JObj (fold_left sorted_call cs [])) (JObj (fold_left ordered_call cs' [])).
Proof.
  intros cs cs' F.
  cut (forall m m', ksorted m -> alike (JObj m) (JObj m') -> alike (JObj (fold_left sorted_call cs m)) (JObj (fold_left ordered_call cs' m'))); [intros H; apply H; [exact ksorted_nil|exact alike_nil]|].
  induction F as [|c c' cs cs' S F IH]; intros m m' K A; cbn [fold_left]; [exact A|].
  apply alike_obj_iff in A as (N & N' & G). destruct c as [k v|k], c' as [k' v'|k']; cbn [same_call] in S; try contradiction; cbn [sorted_call ordered_call].
  - destruct S as [<- S]. pose proof (ksorted_insert k v m K) as K2. apply IH; [exact K2|]. apply alike_obj_iff. split; [now apply ksorted_nodup|]. split; [now apply io_insert_nodup|].
    intros x. rewrite obj_get_insert, io_get_insert. destruct (String.eqb x k); [exact S|apply G].
  - subst k'. pose proof (ksorted_remove k m K) as K2. destruct (io_remove_spec k m' N') as [N2 G2]. apply IH; [exact K2|]. apply alike_obj_iff. split; [now apply ksorted_nodup|]. split; [exact N2|].
    intros x. rewrite G2. destruct (String.eqb_spec x k) as [->|Hn]; [now rewrite obj_get_remove_eq|]. rewrite obj_get_remove_neq by assumption. apply G.
Qed.

Lemma io_fresh k v m : ~ In k (map fst m) -> io_insert k v m = (m ++ [(k, v)])%list.
Proof. induction m as [|[k' w] m IH]; cbn [map fst io_insert app In]; intros H; [reflexivity|]. destruct (String.eqb_spec k k') as [->|]; [tauto|]. rewrite IH by tauto. reflexivity. Qed.
Lemma io_of_list_id l : NoDup (map fst l) -> io_of_list l = l.
Proof.
  unfold io_of_list. cut (forall acc, NoDup (map fst (acc ++ l)) -> fold_left (fun m (kv : string * json) => io_insert (fst kv) (snd kv) m) l acc = (acc ++ l)%list); [intros H N; exact (H [] N)|].
  induction l as [|[k v] l IH]; intros acc N; cbn [fold_left fst snd]; [now rewrite app_nil_r|]. rewrite io_fresh.
  - rewrite IH; rewrite <- app_assoc; [reflexivity|exact N].
  - rewrite map_app in N. cbn [map fst] in N. apply NoDup_remove_2 in N. intros I. apply N, in_or_app. now left.
Qed.
Lemma io_normalize_id a : forall b, alike a b -> io_normalize a = a.
Proof.
  induction a using json_ind'; intros b' A; inversion A; subst; cbn [io_normalize]; try reflexivity; f_equal.
  - match goal with K : Forall2 alike _ _ |- _ => clear A; rename K into A end. revert l' A. induction H as [|x l Hx _ IH]; intros l' A; inversion A; subst; cbn [map]; [reflexivity|]. f_equal; eauto.
  - match goal with K : NoDup (map fst m) |- _ => rename K into N end. match goal with K : forall k v, In (k, v) m -> _ |- _ => rename K into G end.
    assert (E : map (fun kv : string * json => (fst kv, io_normalize (snd kv))) m = m).
    { clear A N. repeat match goal with K : forall k v0, In (k, v0) m' -> _ |- _ => clear K end. induction H as [|[k v] m Hx _ IH]; cbn [map fst snd]; [reflexivity|]. f_equal; [|apply IH; intros ? ? I; apply G; now right]. f_equal.
      destruct (G k v (or_introl eq_refl)) as (v' & _ & Av). exact (Hx _ Av). }
    rewrite E. now apply io_of_list_id.
Qed.

(** C119: a text is read by both kinds of map or by neither, and then to the same value but for the order of members; and when two
    such values can be written, both texts read as one and the same value, and a map that keeps the order reads exactly the members as written. *)
Lemma c119_text_pf :
  (forall s, both alike (json_of_text s) (io_of_text s))
  /\ (forall a b, alike a b -> writable a -> writable b /\ json_of_text (jprint a) = json_of_text (jprint b) /\ io_of_text (jprint b) = Some b).
Proof.
  split.
  - intros s. unfold json_of_text, io_of_text. destruct (parse_raw s); cbn [option_map both]; [apply normalize_alike|exact I].
  - intros a b A W. pose proof (alike_writable _ _ A W) as W'. split; [exact W'|]. destruct (alike_read _ _ A W) as [E E']. rewrite E, E'. split; [reflexivity|].
    unfold io_of_text, writable in *. rewrite W'. cbn [option_map]. f_equal. apply io_normalize_id with (b := a). now apply alike_sym.
Qed.

(** C119: reading a request object, whatever the URL parser: both orders of its members are refused with one error, or give requests
    that agree in every field and hold the same parameters. *)
Lemma c119_request_pf : forall up o o', alike (JObj o) (JObj o') -> agree (like_request alike) (aro_of_obj up o) (aro_of_obj up o').
Proof. exact request_like. Qed.

(** C119: the same for wallet metadata. *)
Lemma c119_metadata_pf : forall up o o', alike (JObj o) (JObj o') -> agree (like_metadata alike) (wm_of_obj up o) (wm_of_obj up o').
Proof. exact wallet_like. Qed.

(** C119: what a wallet decides about a request from its metadata does not depend on the order of the members of either. *)
Lemma c119_gate_pf : forall w w' a a', (like_metadata alike) w w' -> (like_request alike) a a' -> validate_against_metadata w a = validate_against_metadata w' a'.
Proof. exact gate_like. Qed.

(** C119: the query a wallet gets out of the request is the same but for the order inside [meta]. *)
Lemma c119_query_pf : forall a a', (like_request alike) a a' -> both (agree (like_query alike)) (aro_dcql a) (aro_dcql a').
Proof. exact query_like. Qed.

(** C119: and the example wallet then chooses the same credentials, whatever it holds. *)
Lemma c119_matcher_pf : forall lower store q q', (like_query alike) q q' -> match_query lower store q = match_query lower store q'.
Proof. exact matcher_like. Qed.

Lemma writable_get m k v : writable (JObj m) -> obj_get k m = Some v -> writable v.
Proof.
  rewrite !writable_iff. intros [T D] G. apply obj_get_in in G. cbn [jtext_ok jdepth] in *. split.
  - rewrite forallb_forall in T. specialize (T _ G). cbn [fst snd] in T. now apply andb_true_iff in T as [_ T].
  - assert (jdepth v <= fold_right Nat.max 0 (map (fun kv => jdepth (snd kv)) m)); [|lia]. apply le_max. apply in_map_iff. exists (k, v). auto.
Qed.
Lemma writable_elem l v : writable (JArr l) -> In v l -> writable v.
Proof.
  rewrite !writable_iff. intros [T D] G. cbn [jtext_ok jdepth] in *. split.
  - rewrite forallb_forall in T. exact (T _ G).
  - assert (jdepth v <= fold_right Nat.max 0 (map jdepth l)); [|lia]. apply le_max. now apply in_map.
Qed.
Lemma jwks_writable cm ks k : writable (JObj cm) -> uo_get p_jwks cm = Some (Ok ks) -> In k ks -> writable (JObj k).
Proof.
  unfold uo_get. cbn [p_jwks tp_key tp_of]. destruct (obj_get "jwks" cm) as [j|] eqn:G; [|discriminate]. intros W E I. pose proof (writable_get _ _ _ W G) as Wj.
  assert (E' : (let? fs := de_fields ["keys"] j in f_req (de_list de_obj) (nth_fld 0 fs)) = Ok ks) by congruence. clear E.
  apply rbind_ok in E' as (fs & Ef & E).
  assert (V : exists v, writable v /\ de_list de_obj v = Ok ks).
  { destruct j as [| | | | |l|m]; cbn [de_fields] in Ef; try discriminate Ef.
    - destruct (Nat.leb (length l) (length ["keys"])); [|discriminate]. injection Ef as <-. destruct l as [|v l]; [discriminate E|]. exists v. split; [|exact E]. apply (writable_elem (v :: l)); [exact Wj|now left].
    - injection Ef as <-. cbn [map nth_fld nth] in E. destruct (obj_get "keys" m) as [v|] eqn:Gv; [|discriminate E]. exists v. split; [exact (writable_get _ _ _ Wj Gv)|exact E]. }
  destruct V as (v & Wv & Ev). destruct v as [| | | | |l|]; try discriminate Ev. cbn [de_list] in Ev. revert Ev I. clear - Wv. assert (H : forall x, In x l -> writable x) by (intros x; now apply writable_elem). clear Wv. revert ks.
  induction l as [|x l IH]; intros ks; cbn [mapM]; intros E I; [injection E as <-; contradiction|]. apply rbind_ok in E as (o & Eo & E). apply rbind_ok in E as (r & Er & E). injection E as <-.
  destruct I as [->|I]; [|exact (IH (fun y Iy => H y (or_intror Iy)) r Er I)]. destruct x as [| | | | | |m]; try discriminate Eo. injection Eo as <-. apply H. now left.
Qed.
Lemma jwk_like jwk_ok o o' : alike (JObj o) (JObj o') -> writable (JObj o) -> Jwe.jwk_of_text jwk_ok (jprint (JObj o)) = Jwe.jwk_of_text jwk_ok (jprint (JObj o')).
Proof. intros A W. unfold Jwe.jwk_of_text. destruct (alike_read _ _ A W) as [E E']. now rewrite E, E'. Qed.
Lemma find_like jwk_ok ks ks' : Forall2 (fun o o' => alike (JObj o) (JObj o')) ks ks' -> (forall k, In k ks -> writable (JObj k)) ->
  find_encryption_jwk jwk_ok ks = find_encryption_jwk jwk_ok ks'.
Proof.
  induction 1 as [|k k' ks ks' A F IH]; intros W; cbn [find_encryption_jwk]; [reflexivity|].
  rewrite <- (jwk_like jwk_ok k k' A (W k (or_introl eq_refl))), (key_like "alg" k k' A), (key_like "kid" k k' A).
  assert (C : enc_candidate k = enc_candidate k') by (unfold enc_candidate; now rewrite (key_like "alg" k k' A), (key_like "crv" k k' A), (key_like "use" k k' A)).
  rewrite C. destruct (enc_candidate k'); [reflexivity|]. apply IH. intros x I. apply W. now right.
Qed.

(** C119: an encrypted answer is built from the request in the same way in either order: same key, same algorithm, same method, same
    content, and the same error if there is one; whatever the checks on keys and the cipher. *)
Lemma c119_encrypted_pf : forall jwk_ok encrypt a a' vp st, like_request alike a a' -> writable (JObj (ro_inner a)) ->
  build_encrypted_response jwk_ok encrypt a vp st = build_encrypted_response jwk_ok encrypt a' vp st.
Proof.
  intros jwk_ok encrypt a a' vp st (A & _) W. apply agree_eq. unfold build_encrypted_response.
  assert (Wc : forall cm, resolve_client_metadata a = Ok cm -> writable (JObj cm)).
  { intros cm. unfold resolve_client_metadata, aro_get, uo_get. cbn [p_client_metadata tp_key tp_of]. destruct (obj_get "client_metadata" (ro_inner a)) as [v|] eqn:G.
    - intros E. pose proof (writable_get _ _ _ W G) as Wv. destruct v; try discriminate E. injection E as <-. exact Wv.
    - intros E. injection E as <-. apply writable_iff. split; [reflexivity|cbn; lia]. }
  pose proof (metadata_like a a' A) as C. destruct (resolve_client_metadata a) as [cm|e], (resolve_client_metadata a') as [cm'|e']; cbn [agree] in C; try contradiction; cbn [rbind]; [|exact C].
  specialize (Wc cm eq_refl). unfold cm_jwks. pose proof (get_like _ p_jwks cm cm' reads_keys C) as K.
  assert (Wk : forall ks, uo_get p_jwks cm = Some (Ok ks) -> forall k, In k ks -> writable (JObj k)) by (intros ks E k; now apply (jwks_writable cm)).
  destruct (uo_get p_jwks cm) as [[ks|]|], (uo_get p_jwks cm') as [[ks'|]|]; cbn [both agree] in K; try contradiction; cbn [parsing_error rbind]; try reflexivity.
  rewrite <- (find_like jwk_ok ks ks' K (Wk ks eq_refl)). unfold cm_encs. rewrite (default_like_eq p_response_encs default_encs cm cm' (reads_list_eq _ reads_str) C). now apply agree_eq.
Qed.

Definition items (v : json) : res (list vp_item) := de_list (fun j => item_of_json (normalize j)) v.
Lemma reads_items : reads (Num := eq) eq items items.
Proof. apply reads_list_eq. intros v v' A. apply agree_eq. now rewrite (alike_normal _ _ A). Qed.
Lemma mapM_err {A B} (f : A -> res B) l e : mapM f l = Err e -> exists x, In x l /\ f x = Err e.
Proof.
  induction l as [|x l IH]; cbn [mapM]; [discriminate|]. destruct (f x) as [y|e'] eqn:E; cbn [rbind].
  - destruct (mapM f l); cbn [rbind]; [discriminate|]. intros H. destruct (IH H) as (z & I & Z). exists z. split; [now right|exact Z].
  - intros H. injection H as ->. exists x. split; [now left|exact E].
Qed.
Lemma vp_get_put id k l t : vp_get id (vp_insert k l t) = if String.eqb id k then Some l else vp_get id t.
Proof.
  induction t as [|[k' v] t IH]; cbn [vp_insert vp_get]; [reflexivity|]. destruct (String.eqb_spec k k') as [->|Hn]; cbn [vp_get].
  - now destruct (String.eqb id k').
  - rewrite IH. destruct (String.eqb_spec id k') as [->|]; [|reflexivity]. destruct (String.eqb_spec k' k) as [->|]; [now destruct Hn|reflexivity].
Qed.
Lemma token_spec m : NoDup (map fst m) ->
  match vp_of_entries m with
  | Ok t => forall id, match obj_get id m with Some v => exists is, items v = Ok is /\ vp_get id t = Some is | None => vp_get id t = None end
  | Err _ => exists k v e, In (k, v) m /\ items v = Err e
  end.
Proof.
  intros N. unfold vp_of_entries. fold items. destruct (mapM _ m) as [l|e] eqn:E; cbn [rbind].
  - apply mapM_ok in E.
    cut (forall id acc, let t := fold_left (fun t (e : string * list vp_item) => vp_insert (fst e) (snd e) t) l acc in
      match obj_get id m with Some v => exists is, items v = Ok is /\ vp_get id t = Some is | None => vp_get id t = vp_get id acc end).
    { intros H id. specialize (H id []). exact H. }
    intros id. induction E as [|[k v] e m l Ex F IH]; intros acc; cbn [fold_left obj_get]; [reflexivity|].
    cbn [map fst] in N. inversion_clear N as [|? ? A N']. cbn [fst snd] in Ex. change (de_list (fun j => item_of_json (normalize j)) v) with (items v) in Ex.
    apply rbind_ok in Ex as (is & Ei & Ex). injection Ex as <-. cbn [fst snd]. specialize (IH N' (vp_insert k is acc)). cbn zeta in IH. cbn zeta.
    destruct (String.eqb_spec id k) as [->|Hn].
    + replace (obj_get k m) with (@None json) in IH by (symmetry; now apply obj_get_none). exists is. split; [exact Ei|]. rewrite IH, vp_get_put, String.eqb_refl. reflexivity.
    + destruct (obj_get id m); [exact IH|]. rewrite IH, vp_get_put. apply String.eqb_neq in Hn. now rewrite Hn.
  - apply mapM_err in E as ([k v] & I & E). cbn [fst snd] in E. change (de_list (fun j => item_of_json (normalize j)) v) with (items v) in E. destruct (items v) as [is|e'] eqn:Ei; [discriminate E|]. exists k, v, e'. auto.
Qed.

(** C119: a presentation is read from both orders or from neither, and then holds the same items under each identifier. *)
Lemma c119_token_pf : forall j j', alike j j' -> decides (fun t t' => forall id, vp_get id t = vp_get id t') (vp_of_json j) (vp_of_json j').
Proof.
  intros j j' A. assert (A0 := A). destruct A as [| | | | | |m m' N N' F B]; try exact I. cbn [vp_of_json]. pose proof (token_spec m N) as S. pose proof (token_spec m' N') as S'.
  apply alike_obj_iff in A0 as (_ & _ & G). destruct (vp_of_entries m) as [t|], (vp_of_entries m') as [t'|]; cbn [decides].
  - intros id. specialize (S id). specialize (S' id). specialize (G id). destruct (obj_get id m) as [v|], (obj_get id m') as [v'|]; cbn [both] in G; try contradiction.
    + destruct S as (is & E & ->), S' as (is' & E' & ->). rewrite (proj1 (agree_eq _ _) (reads_items v v' G)) in E. congruence.
    + congruence.
  - destruct S' as (k & v' & e1 & I & E). destruct (B _ _ I) as (v & Iv & A). specialize (S k). rewrite (get_in _ _ _ N Iv) in S. destruct S as (is & Ei & _).
    rewrite (proj1 (agree_eq _ _) (reads_items v v' A)) in Ei. congruence.
  - destruct S as (k & v & e1 & I & E). destruct (F _ _ I) as (v' & Iv & A). specialize (S' k). rewrite (get_in _ _ _ N' Iv) in S'. destruct S' as (is & Ei & _).
    rewrite (proj1 (agree_eq _ _) (reads_items v v' A)) in E. congruence.
  - exact I.
Qed.

(** C119: but the format a wallet derives from a description it does not know is the name of its first member: one text gives
    different formats with the two kinds of map. *)
Lemma c119_designation_refuted_pf : exists s c c',
  option_map cf_of_json (json_of_text s) = Some (Ok c) /\ option_map cf_of_json (io_of_text s) = Some (Ok c') /\ cf_designation c <> cf_designation c'.
Proof.
  exists "{""vc+new"":{},""alg"":[]}", (CfOther (JObj [("alg", JArr []); ("vc+new", JObj [])])), (CfOther (JObj [("vc+new", JObj []); ("alg", JArr [])])).
  split; [vm_compute; reflexivity|]. split; [vm_compute; reflexivity|]. discriminate.
Qed.

(* ------------------------------------------------------------ witnesses *)
Definition toy_raw : json :=
  JObj [("response_type", JStr "vp_token"); ("response_uri", JStr "https://v.example/r"); ("response_mode", JStr "direct_post.jwt"); ("nonce", JStr "n"); ("client_id", JStr "x509_san_dns:v.example");
        ("dcql_query", JObj [("credentials", JArr [JObj [("meta", JObj [("vct_values", JArr [JStr "pid"]); ("purpose", JNull)]); ("id", JStr "pid"); ("format", JStr "dc+sd-jwt")]])]);
        ("client_metadata", JObj [("jwks", JObj [("keys", JArr [JObj [("use", JStr "enc"); ("kty", JStr "EC"); ("crv", JStr "P-256"); ("alg", JStr "ECDH-ES")]])])])].
Definition toy_sorted : obj := match normalize toy_raw with JObj m => m | _ => [] end.
Definition toy_ordered : obj := match io_normalize toy_raw with JObj m => m | _ => [] end.
Lemma toy_alike : alike (JObj toy_sorted) (JObj toy_ordered).
Proof. exact (normalize_alike toy_raw). Qed.
Definition toy_wallet_raw : json :=
  JObj [("vp_formats_supported", JObj [("mso_mdoc", JObj []); ("dc+sd-jwt", JObj [("alg_values", JArr [JStr "ES256"])])]); ("client_id_prefixes_supported", JArr [JStr "x509_san_dns"]); ("authorization_endpoint", JStr "openid4vp://")].
Definition toy_wm_sorted : obj := match normalize toy_wallet_raw with JObj m => m | _ => [] end.
Definition toy_wm_ordered : obj := match io_normalize toy_wallet_raw with JObj m => m | _ => [] end.
Lemma toy_wm_alike : alike (JObj toy_wm_sorted) (JObj toy_wm_ordered).
Proof. exact (normalize_alike toy_wallet_raw). Qed.
Definition toy_reads (o : obj) : option aro := match aro_of_obj simple_parse o with Ok a => Some a | Err _ => None end.
Definition toy_wallet_reads (o : obj) : option wallet_metadata := match wm_of_obj simple_parse o with Ok a => Some a | Err _ => None end.

Example c119_objects_ex :
  exists cs cs', Forall2 same_call cs cs' /\ map fst (fold_left sorted_call cs []) = ["a"; "c"; "d"] /\ map fst (fold_left ordered_call cs' []) = ["d"; "a"; "c"].
Proof.
  exists [MInsert "b" JNull; MInsert "a" (JObj toy_sorted); MInsert "c" JNull; MInsert "d" JNull; MRemove "b"; MInsert "a" JNull],
         [MInsert "b" JNull; MInsert "a" (JObj toy_ordered); MInsert "c" JNull; MInsert "d" JNull; MRemove "b"; MInsert "a" JNull].
  split; [|split; vm_compute; reflexivity]. do 6 (apply Forall2_cons; [cbn [same_call]; first [reflexivity | split; [reflexivity|first [exact toy_alike | exact (like_null eq)]]]|]). apply Forall2_nil.
Qed.
Example c119_text_ex : json_of_text (jprint (JObj toy_ordered)) = Some (JObj toy_sorted) /\ io_of_text (jprint (JObj toy_ordered)) = Some (JObj toy_ordered) /\ map fst toy_sorted <> map fst toy_ordered.
Proof. split; [vm_compute; reflexivity|]. split; [vm_compute; reflexivity|]. vm_compute. discriminate. Qed.
Example c119_request_ex : option_map ro_mode (toy_reads toy_sorted) = Some DirectPostJwt /\ option_map ro_mode (toy_reads toy_ordered) = Some DirectPostJwt.
Proof. split; vm_compute; reflexivity. Qed.
Example c119_metadata_ex :
  option_map (fun w => map fst (wm_formats w)) (toy_wallet_reads toy_wm_sorted) = Some [DcSdJwt; MsoMDoc]
  /\ option_map (fun w => map fst (wm_formats w)) (toy_wallet_reads toy_wm_ordered) = Some [MsoMDoc; DcSdJwt].
Proof. split; vm_compute; reflexivity. Qed.
Example c119_gate_ex :
  match toy_wallet_reads toy_wm_sorted, toy_reads toy_ordered with Some w, Some a => validate_against_metadata w a | _, _ => Err "" end = Ok tt.
Proof. vm_compute. reflexivity. Qed.
Example c119_query_ex : option_map (fun a => match aro_dcql a with Some (Ok q) => map (fun c => map fst (cq_meta c)) (dq_credentials q) | _ => [] end) (toy_reads toy_sorted) = Some [["purpose"; "vct_values"]]
  /\ option_map (fun a => match aro_dcql a with Some (Ok q) => map (fun c => map fst (cq_meta c)) (dq_credentials q) | _ => [] end) (toy_reads toy_ordered) = Some [["vct_values"; "purpose"]].
Proof. split; vm_compute; reflexivity. Qed.
Example c119_matcher_ex :
  option_map (fun a => match aro_dcql a with Some (Ok q) => match_query (fun s => s) [mk_credential "1" DcSdJwt (Some "pid") None "raw" []] q | _ => Err "" end) (toy_reads toy_ordered) = Some (Ok [("pid", ["raw"])]).
Proof. vm_compute. reflexivity. Qed.
Example c119_encrypted_ex :
  option_map (fun a => build_encrypted_response (fun _ => true) (fun h c k => Ok (jprint (JObj h))) a [] None) (toy_reads toy_ordered)
  = Some (Ok (Jwt "{""alg"":""ECDH-ES"",""enc"":""A128GCM"",""typ"":""JWT""}")) /\ parse_raw (jprint (JObj toy_ordered)) = Some (JObj toy_ordered).
Proof. split; vm_compute; reflexivity. Qed.
Example c119_token_ex :
  rmap (map fst) (vp_of_json (JObj [("b", JArr [JStr "x"]); ("a", JArr [])])) = Ok ["b"; "a"] /\ rmap (map fst) (vp_of_json (JObj [("a", JArr []); ("b", JArr [JStr "x"])])) = Ok ["a"; "b"].
Proof. split; vm_compute; reflexivity. Qed.
