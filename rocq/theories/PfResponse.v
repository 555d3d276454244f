From Coq Require Import Lia Sorting.Permutation.
From Verif Require Import Base BaseFacts Utf8 Utf8Facts Json JsonFacts JsonText JsonTextFacts Base64Facts UrlEncoded
  UrlEncodedFacts Serde Object Params Response Request Spec ParamFacts SpecRequest PfRequest PfText SpecResponse.

(* ------------------------------------------------------------ printed JSON is valid text *)
Lemma escape_high c : (128 <=? byte c)%N = true -> escape_char c = s1 c.
Proof.
  intros H. unfold escape_char. apply N.leb_le in H.
  repeat match goal with |- context [(?a =? ?b)%N] =>
    let E := fresh in destruct (N.eqb_spec a b) as [E|E]; [lia|] end.
  destruct (N.ltb_spec (byte c) 32); [lia|reflexivity].
Qed.
Definition escape_low_b (c : ascii) : bool := negb (is_ascii c) || str_all is_ascii (escape_char c).
Lemma escape_low_all : forallb escape_low_b all_ascii = true.
Proof. vm_compute. reflexivity. Qed.
Lemma escape_low c : is_ascii c = true -> str_all is_ascii (escape_char c) = true.
Proof.
  intros H. pose proof (proj1 (forallb_forall escape_low_b all_ascii) escape_low_all c (all_ascii_in c)) as E.
  unfold escape_low_b in E. rewrite H in E. exact E.
Qed.
Definition highs (p : list (N * N)) : Prop := Forall (fun r => (128 <= fst r)%N) p.
Lemma utf8_start_highs c p : utf8_start c = Some p -> highs p.
Proof.
  unfold utf8_start, highs.
  repeat match goal with |- context [if ?b then _ else _] => destruct b end; intros H; inversion H; subst;
    repeat constructor; cbn; lia.
Qed.
Lemma escape_utf8 s : forall p, highs p -> utf8_go p s = true -> utf8_go p (escape s) = true.
Proof.
  induction s as [|c s IH]; intros p Hp H; [exact H|]. cbn [escape]. destruct p as [|[lo hi] p].
  - cbn [utf8_go] in H. destruct (utf8_start c) as [q|] eqn:E; [|discriminate].
    destruct (is_ascii c) eqn:A.
    + rewrite utf8_go_app by (apply utf8_ascii, escape_low, A). apply IH; [constructor|].
      unfold utf8_start, is_ascii in *. rewrite A in E. injection E as <-. exact H.
    + unfold is_ascii in A. rewrite escape_high by (apply N.leb_le; apply N.ltb_ge in A; exact A).
      cbn [s1 String.append utf8_go]. rewrite E. apply IH; [now apply (utf8_start_highs c)|exact H].
  - cbn [utf8_go] in H. apply andb_true_iff in H as [H1 H2]. inversion Hp; subst. cbn [fst] in *.
    rewrite escape_high.
    + cbn [s1 String.append utf8_go]. rewrite H1. apply IH; assumption.
    + unfold in_range in H1. apply andb_true_iff in H1 as [H1 _]. apply N.leb_le in H1. apply N.leb_le. lia.
Qed.
Lemma print_str_utf8 s : utf8_valid s = true -> utf8_valid (print_str s) = true.
Proof.
  intros H. unfold print_str. rewrite utf8_cons_ascii by reflexivity.
  apply utf8_valid_cat; [|reflexivity]. apply (escape_utf8 s []); [constructor|exact H].
Qed.
Lemma join_utf8 l : Forall (fun s => utf8_valid s = true) l -> utf8_valid (join "," l) = true.
Proof.
  induction 1 as [|x l Hx Hl IH]; [reflexivity|]. destruct l as [|y l]; [exact Hx|].
  change (join "," (x :: y :: l)) with (x +:+ "," +:+ join "," (y :: l)).
  apply utf8_valid_cat; [exact Hx|]. apply utf8_valid_cat; [reflexivity|exact IH].
Qed.
Lemma numchar_ascii s : str_all is_numchar s = true -> utf8_valid s = true.
Proof.
  intros H. apply utf8_ascii. revert H. apply str_all_impl. intros c H.
  assert (E : forallb (fun c => negb (is_numchar c) || is_ascii c) all_ascii = true) by (vm_compute; reflexivity).
  pose proof (proj1 (forallb_forall _ all_ascii) E c (all_ascii_in c)) as F. cbn beta in F. rewrite H in F. exact F.
Qed.
Lemma jprint_utf8 j : jtext_ok j = true -> utf8_valid (jprint j) = true.
Proof.
  induction j using json_ind'; intros Hok.
  - reflexivity.
  - destruct b; reflexivity.
  - cbn [jprint]. apply numchar_ascii. pose proof (num_of_dec z Hok) as E. now apply num_token_chars in E.
  - cbn [jprint]. apply numchar_ascii. apply float_token in Hok. now apply num_token_chars in Hok.
  - cbn [jprint]. apply print_str_utf8. exact Hok.
  - cbn [jprint]. rewrite utf8_cons_ascii by reflexivity. apply utf8_valid_cat; [|reflexivity].
    apply join_utf8. apply Forall_forall. intros s Hs. apply in_map_iff in Hs as (x & <- & Hx).
    rewrite Forall_forall in H. apply H; [exact Hx|]. cbn [jtext_ok] in Hok. rewrite forallb_forall in Hok. auto.
  - rewrite jprint_obj. rewrite utf8_cons_ascii by reflexivity. apply utf8_valid_cat; [|reflexivity].
    apply join_utf8. apply Forall_forall. intros s Hs. apply in_map_iff in Hs as (x & <- & Hx).
    rewrite Forall_forall in H. cbn [jtext_ok] in Hok. rewrite forallb_forall in Hok.
    pose proof (Hok x Hx) as K. apply andb_true_iff in K as [K1 K2]. unfold member_text.
    apply utf8_valid_cat; [now apply print_str_utf8|]. rewrite utf8_cons_ascii by reflexivity. auto.
Qed.

(* ------------------------------------------------------------ the token's text *)
Lemma item_text_ok i : item_ok i -> jtext_ok (item_to_json i) = true /\ item_sorted i.
Proof. destruct i as [s|m]; cbn [item_ok item_to_json item_sorted]; [auto|]. unfold jwf. now rewrite andb_true_iff. Qed.
Lemma members_text_ok t : token_ok t -> jtext_ok (JObj (vp_members t)) = true.
Proof.
  intros [_ H]. cbn [jtext_ok]. apply forallb_forall. intros [k v] Hi. unfold vp_members in Hi.
  apply in_map_iff in Hi as ([id l] & E & Hi). injection E as <- <-. destruct (H _ _ Hi) as [H1 H2].
  cbn [fst snd]. rewrite H1. cbn [andb jtext_ok]. apply forallb_forall. intros j Hj.
  apply in_map_iff in Hj as (i & <- & Hj). apply item_text_ok, H2, Hj.
Qed.
Lemma members_sorted_items t : token_ok t -> Forall (fun e => Forall item_sorted (snd e)) t.
Proof.
  intros [_ H]. apply Forall_forall. intros [id l] Hi. apply Forall_forall. intros i Hl.
  apply item_text_ok. now apply (H id l).
Qed.
Lemma max_le_iff l n : fold_right Nat.max 0 l <= n <-> forall x, In x l -> x <= n.
Proof.
  induction l as [|y l IH]; cbn; [split; [intros _ x []|lia]|]. rewrite Nat.max_lub_iff, IH.
  split; [intros [H1 H2] x [->|H]; auto|auto].
Qed.
Lemma members_depth t n : jdepth (JObj (vp_members t)) <= S (S n) <-> nested_at_most n t.
Proof.
  cbn [jdepth]. rewrite <- Nat.succ_le_mono, max_le_iff. split.
  - intros H. intros id items m Hi Hm.
    pose proof (H (jdepth (JArr (map item_to_json items)))) as K.
    assert (jdepth (JArr (map item_to_json items)) <= S n) as K'.
    { apply K. apply in_map_iff. exists (id, JArr (map item_to_json items)). split; [reflexivity|].
      unfold vp_members. apply in_map_iff. exists (id, items). auto. }
    cbn [jdepth] in K'. rewrite <- (Nat.succ_le_mono _ n), max_le_iff in K'. apply K'.
    apply in_map_iff. exists (JObj m). split; [reflexivity|]. apply in_map_iff. exists (VpObject m). auto.
  - intros H x Hx. apply in_map_iff in Hx as ([k v] & <- & Hx). unfold vp_members in Hx.
    apply in_map_iff in Hx as ([id l] & E & Hi). cbn [fst snd] in E. injection E as _ <-.
    cbn [snd jdepth]. rewrite <- (Nat.succ_le_mono _ n), max_le_iff. intros y Hy.
    apply in_map_iff in Hy as (j & <- & Hj). apply in_map_iff in Hj as (i & <- & Hj).
    destruct i as [s|m]; [cbn; lia|]. apply (H id l m Hi Hj).
Qed.
Lemma parse_raw_deep j : jtext_ok j = true -> 127 < jdepth j -> parse_raw (jprint j) = None.
Proof.
  intros Ht Hd. destruct (parse_raw (jprint j)) as [v|] eqn:E; [|reflexivity]. exfalso.
  pose proof (parse_raw_ok _ _ E) as [_ Hv]. unfold parse_raw in E.
  destruct (parse_value _ 128 (jprint j)) as [[w q]|] eqn:E'; [|discriminate].
  apply (proj1 (parse_mono _)) with (d' := S (jdepth j)) in E'; [|lia].
  rewrite (parse_print_deep j (S (jdepth j)) Ht ltac:(lia)) in E'. injection E' as <- <-.
  cbn in E. injection E as <-. lia.
Qed.
Lemma vp_text_rt t : token_ok t -> nested_at_most 125 t -> vp_of_text (vp_print t) = Ok t.
Proof.
  intros H D. unfold vp_of_text, vp_print. rewrite parse_raw_print.
  - cbn [vp_of_json]. apply vp_entries_rt; [apply H|now apply members_sorted_items].
  - now apply members_text_ok.
  - now apply (members_depth t 125).
Qed.

Lemma pairs_utf8 u : token_ok (ur_vp_token u) -> state_ok (ur_state u) ->
  Forall (fun kv : string * string => utf8_valid (fst kv) = true /\ utf8_valid (snd kv) = true) (unencoded_pairs u).
Proof.
  intros H S. unfold unencoded_pairs. constructor.
  - split; [reflexivity|]. apply jprint_utf8. now apply members_text_ok.
  - destruct (ur_state u) as [s|] eqn:E; [|constructor]. constructor; [|constructor].
    split; [reflexivity|]. cbn [snd]. now apply S.
Qed.

(** C42: an unencoded response written as a form body is read back as the same response, exactly when no
    presentation is a JSON object nested deeper than 125; otherwise the verifier cannot read it at all. *)
Lemma c42_roundtrip_pf :
  forall (t : vp_token) (st : option string), token_ok t -> state_ok st ->
    (nested_at_most 125 t ->
       from_form (unencoded_form (mk_unencoded t st)) = Ok (Unencoded (mk_unencoded t st)))
    /\ (~ nested_at_most 125 t ->
       exists e, from_form (unencoded_form (mk_unencoded t st)) = Err e).
Proof.
  intros t st Ht Hs. unfold from_form, unencoded_form.
  rewrite form_parse_serialize by (apply pairs_utf8; assumption).
  unfold unencoded_pairs. cbn [ur_vp_token ur_state].
  assert (E : forall st', field_values "response" (("vp_token", vp_print t) :: match st' with Some s => [("state", s)] | None => [] end) = []
     /\ field_values "vp_token" (("vp_token", vp_print t) :: match st' with Some s => [("state", s)] | None => [] end) = [vp_print t]
     /\ field_values "state" (("vp_token", vp_print t) :: match st' with Some s => [("state", s)] | None => [] end) = match st' with Some s => [s] | None => [] end).
  { intros [s|]; repeat split. }
  destruct (E st) as (E1 & E2 & E3). rewrite E1, E2, E3. clear E E1 E2 E3.
  split; intros D.
  - destruct st; cbn [rbind]; rewrite vp_text_rt by assumption; reflexivity.
  - assert (K : vp_of_text (vp_print t) = Err "invalid-json").
    { unfold vp_of_text, vp_print. rewrite parse_raw_deep; [reflexivity|now apply members_text_ok|].
      destruct (Nat.lt_ge_cases 127 (jdepth (JObj (vp_members t)))) as [L|G]; [exact L|].
      now apply (members_depth t 125) in G. }
    exists "invalid-json". destruct st; cbn [rbind]; rewrite K; reflexivity.
Qed.

Definition toy_token : vp_token :=
  [("b", [VpString "a&state=x""}=%"; VpObject [("@context", JArr [JStr "ü"])]]); ("a", [])].
Example c42_roundtrip_ex :
  token_ok toy_token /\ nested_at_most 125 toy_token /\ state_ok (Some "&vp_token={}").
Proof.
  split; [|split].
  - split; [repeat constructor; cbn; intuition discriminate|]. intros id items Hi. cbn in Hi.
    destruct Hi as [E|[E|[]]]; injection E as <- <-; (split; [reflexivity|]); cbn; intuition; subst; reflexivity.
  - intros id items m Hi Hm. cbn in Hi. destruct Hi as [E|[E|[]]]; injection E as <- <-; cbn in Hm; [|tauto].
    destruct Hm as [E|[E|[]]]; [discriminate|]. injection E as <-. cbn. lia.
  - intros x E. injection E as <-. reflexivity.
Qed.

(** C42: so the order in which the token's entries happen to be emitted does not matter. *)
Lemma c42_order_pf :
  forall (t t' : vp_token) (st : option string),
    token_ok t -> nested_at_most 125 t -> state_ok st -> Permutation t t' ->
    exists r, from_form (unencoded_form (mk_unencoded t' st)) = Ok (Unencoded (mk_unencoded r st))
      /\ Permutation t r /\ forall id, vp_get id r = vp_get id t.
Proof.
  intros t t' st [Hn Ht] D S P. exists t'.
  assert (Hn' : NoDup (map fst t')) by (eapply Permutation_NoDup; [apply Permutation_map, P|exact Hn]).
  split; [|split; [exact P|]].
  - apply c42_roundtrip_pf; [split; [exact Hn'|]|exact S|].
    + intros id items Hi. apply Ht. eapply Permutation_in; [symmetry; exact P|exact Hi].
    + intros id items m Hi. apply (D id). eapply Permutation_in; [symmetry; exact P|exact Hi].
  - assert (G : forall l id x, NoDup (map fst l) -> vp_get id l = Some x <-> In (id, x) l).
    { clear. induction l as [|[k v] l IH]; intros id x Hn; cbn; [split; [discriminate|tauto]|].
      inversion Hn; subst. destruct (String.eqb_spec id k) as [->|N].
      - split; [intros E; injection E as ->; auto|]. intros [E|Hi]; [congruence|].
        exfalso. apply H1. apply in_map_iff. exists (k, x). auto.
      - rewrite IH by assumption. split; [auto|]. intros [E|Hi]; [congruence|exact Hi]. }
    intros id. destruct (vp_get id t) as [x|] eqn:E.
    + apply G; [exact Hn'|]. eapply Permutation_in; [exact P|]. now apply G.
    + destruct (vp_get id t') as [x|] eqn:E'; [|reflexivity]. apply G in E'; [|exact Hn'].
      assert (vp_get id t = Some x) by (apply G; [exact Hn|]; eapply Permutation_in; [symmetry; exact P|exact E']).
      congruence.
Qed.

Example c42_order_ex : Permutation toy_token (rev toy_token) /\ toy_token <> rev toy_token.
Proof. split; [apply Permutation_rev|discriminate]. Qed.

(** C42: an encrypted response written as a form body is read back as the same encrypted response. *)
Lemma c42_jwt_pf :
  forall jwt : string, utf8_valid jwt = true -> from_form (jwt_form jwt) = Ok (Jwt jwt).
Proof.
  intros jwt H. unfold from_form, jwt_form. rewrite form_parse_serialize; [reflexivity|].
  repeat constructor; auto.
Qed.

Example c42_jwt_ex : utf8_valid "a.b&response=c" = true.
Proof. reflexivity. Qed.

(** C42: the nesting limit is real: a presentation nested 126 deep can be sent but not read. *)
Fixpoint deep_object (n : nat) : json :=
  match n with O => JObj [] | S n => JObj [("a", deep_object n)] end.
Lemma c42_deep_refuted_pf :
  exists t, token_ok t /\ exists e, from_form (unencoded_form (mk_unencoded t None)) = Err e.
Proof.
  set (t := [("a", [VpObject [("a", deep_object 124)]])] : vp_token). exists t.
  assert (H : token_ok t).
  { split; [repeat constructor; cbn; tauto|]. intros id items Hi. destruct Hi as [E|[]]. injection E as <- <-.
    split; [reflexivity|]. intros i [<-|[]]. vm_compute. reflexivity. }
  split; [exact H|]. apply c42_roundtrip_pf; [exact H|discriminate|].
  intros D. specialize (D "a" [VpObject [("a", deep_object 124)]] [("a", deep_object 124)]).
  assert (jdepth (JObj [("a", deep_object 124)]) = 126) by (vm_compute; reflexivity).
  cbn in D. specialize (D (or_introl eq_refl) (or_introl eq_refl)). cbn [jdepth] in H0. lia.
Qed.

(* ------------------------------------------------------------ reading a token *)
Lemma item_iff j i : item_of_json (normalize j) = Ok i <-> item_json j i.
Proof.
  destruct i as [s|m]; cbn [item_json].
  - destruct j; cbn [normalize item_of_json]; split; intros H; try discriminate; congruence.
  - split.
    + destruct j as [| | | | | |m0]; cbn [normalize item_of_json]; intros H; try discriminate.
      exists m0. split; [reflexivity|]. cbn [normalize]. congruence.
    + intros (m0 & -> & E). rewrite E. reflexivity.
Qed.
Lemma forall2_iff {A B} (P Q : A -> B -> Prop) l r : (forall a b, P a b <-> Q a b) -> Forall2 P l r <-> Forall2 Q l r.
Proof. intros H. split; induction 1; constructor; try assumption; now apply H. Qed.
Lemma items_iff v l : de_list (fun j => item_of_json (normalize j)) v = Ok l <-> items_json v l.
Proof.
  unfold items_json. destruct v as [| | | | |js|]; cbn [de_list];
    try (split; [discriminate|]; intros (js' & E & _); discriminate).
  rewrite mapM_ok, (forall2_iff _ item_json) by (intros; apply item_iff).
  split; [eauto|]. intros (js' & E & F). injection E as <-. exact F.
Qed.
Lemma items_fun v l l' : items_json v l -> items_json v l' -> l = l'.
Proof. intros H H'. apply items_iff in H, H'. congruence. Qed.
Definition entry_of (kv : string * json) (e : string * list vp_item) : Prop :=
  fst kv = fst e /\ items_json (snd kv) (snd e).
Lemma entries_iff m l :
  mapM (fun kv : string * json => let? is := de_list (fun j => item_of_json (normalize j)) (snd kv) in
                            Ok (fst kv, is)) m = Ok l <-> Forall2 entry_of m l.
Proof.
  rewrite mapM_ok. apply forall2_iff. intros [k v] [k' l']. unfold entry_of. cbn [fst snd].
  rewrite <- items_iff. destruct (de_list _ v) as [x|]; cbn [rbind]; split.
  - intros E. injection E as <- <-. auto.
  - intros [<- E]. congruence.
  - discriminate.
  - intros [_ E]. discriminate.
Qed.

Definition last_entry {A} (k : string) (x : A) (l : list (string * A)) : Prop :=
  exists a b, l = a ++ (k, x) :: b /\ ~ In k (map fst b).
Lemma last_entry_snoc {A} k (x : A) l k' x' :
  last_entry k x (l ++ [(k', x')]) <-> (k = k' /\ x = x') \/ (k <> k' /\ last_entry k x l).
Proof.
  split.
  - intros (a & b & E & N). destruct (list_eq_dec string_dec (map fst b) []) as [B|B].
    + destruct b; [|discriminate]. apply app_inj_tail in E as [_ E]. injection E as -> ->. auto.
    + destruct b as [|e b _] using rev_ind; [contradiction|]. clear B.
      change (a ++ (k, x) :: b ++ [e]) with (a ++ ((k, x) :: b) ++ [e]) in E. rewrite app_assoc in E.
      apply app_inj_tail in E as [E <-]. right. rewrite map_app, in_app_iff in N. cbn in N.
      split; [intros ->; tauto|]. exists a, b. tauto.
  - intros [[-> ->]|[N (a & b & -> & Nb)]].
    + exists l, []. cbn. auto.
    + exists a, (b ++ [(k', x')]). rewrite <- app_assoc. split; [reflexivity|].
      rewrite map_app, in_app_iff. cbn. intuition.
Qed.
Lemma vp_insert_in k v t id x : NoDup (map fst t) ->
  In (id, x) (vp_insert k v t) <-> (id = k /\ x = v) \/ (id <> k /\ In (id, x) t).
Proof.
  induction t as [|[k' v'] t IH]; cbn [vp_insert map fst]; intros Hn.
  - cbn. split; [intros [E|[]]; injection E; auto|]. intros [[-> ->]|[_ []]]. auto.
  - inversion Hn as [|? ? Hi Hn']; subst. destruct (String.eqb_spec k k') as [->|N]; cbn [In].
    + split.
      * intros [E|H]; [injection E; auto|]. right. split; [|auto]. intros ->. apply Hi.
        apply in_map_iff. exists (k', x). auto.
      * intros [[-> ->]|[N [E|H]]]; auto. congruence.
    + rewrite IH by assumption. split; [intros [E|[H|H]]; intuition congruence|intuition].
Qed.
Lemma vp_insert_keys k v t : map fst (vp_insert k v t) = if mem_str k (map fst t) then map fst t else map fst t ++ [k].
Proof.
  induction t as [|[k' v'] t IH]; [reflexivity|]. cbn [vp_insert map fst].
  unfold mem_str in *. cbn [existsb]. destruct (String.eqb k k') eqn:E; [reflexivity|].
  cbn [map fst orb]. rewrite IH. now destruct (existsb (String.eqb k) (map fst t)).
Qed.
Lemma vp_insert_nodup k v t : NoDup (map fst t) -> NoDup (map fst (vp_insert k v t)).
Proof.
  intros H. rewrite vp_insert_keys. destruct (mem_str k (map fst t)) eqn:E; [exact H|].
  apply (Permutation_NoDup (Permutation_app_comm [k] (map fst t))). cbn. constructor; [|exact H].
  intros Hi. apply mem_str_iff in Hi. congruence.
Qed.
Lemma fold_insert l : forall t, t = fold_left (fun t e => vp_insert (fst e) (snd e) t) l [] ->
  NoDup (map fst t) /\ forall id x, In (id, x) t <-> last_entry id x l.
Proof.
  induction l as [|[k v] l IH] using rev_ind; intros t ->.
  - split; [constructor|]. intros id x. split; [intros []|]. intros (a & b & E & _). destruct a; discriminate.
  - rewrite fold_left_app. cbn [fold_left fst snd]. destruct (IH _ eq_refl) as [Hn H].
    split; [now apply vp_insert_nodup|]. intros id x. rewrite vp_insert_in by exact Hn.
    rewrite last_entry_snoc, H. tauto.
Qed.
Lemma last_entry_transfer m l id x : Forall2 entry_of m l ->
  last_entry id x l <-> exists a v b, m = a ++ (id, v) :: b /\ ~ In id (map fst b) /\ items_json v x.
Proof.
  intros F. assert (K : forall m l, Forall2 entry_of m l -> map fst m = map fst l).
  { clear. induction 1 as [|? ? ? ? [E _] _ IH]; cbn; congruence. }
  split.
  - intros (a & b & -> & N). apply Forall2_app_inv_r in F as (a' & mb & Fa & Fb & ->).
    inversion Fb as [|[k v] ? b' ? [E I] Fb']; subst. cbn [fst snd] in *. subst k.
    exists a', v, b'. rewrite (K _ _ Fb'). auto.
  - intros (a & v & b & -> & N & I). apply Forall2_app_inv_l in F as (a' & lb & Fa & Fb & ->).
    inversion Fb as [|? [k l'] ? b' [E I'] Fb']; subst. cbn [fst snd] in *. subst k.
    rewrite <- (items_fun _ _ _ I I'). exists a', b'. rewrite <- (K _ _ Fb'). auto.
Qed.
Lemma vp_text_sound v t : vp_of_text v = Ok t -> token_text v t.
Proof.
  unfold vp_of_text, token_text. destruct (parse_raw v) as [[| | | | | |m]|]; try discriminate.
  cbn [vp_of_json]. unfold vp_of_entries. destruct (mapM _ m) as [l|] eqn:E; cbn [rbind]; [|discriminate].
  intros H. injection H as H. symmetry in H. apply entries_iff in E. apply fold_insert in H as [Hn H].
  exists m. split; [reflexivity|]. split; [|split; [exact Hn|]].
  - intros k w Hi. clear - E Hi. induction E as [|[k' v'] [k2 l2] m l [E1 E2] F IH]; [destruct Hi|].
    destruct Hi as [X|Hi]; [|auto]. injection X as <- <-. eauto.
  - intros id x. rewrite H. now apply last_entry_transfer.
Qed.
Lemma nodup_keys {A} (l : list (string * A)) : NoDup (map fst l) -> NoDup l.
Proof. apply NoDup_map_inv. Qed.
Lemma vp_text_complete v t : token_text v t -> exists t', vp_of_text v = Ok t' /\ Permutation t t'.
Proof.
  intros (m & P & Hm & Hn & H).
  assert (exists l, Forall2 entry_of m l) as [l F].
  { clear - Hm. induction m as [|[k v] m IH]; [exists []; constructor|].
    destruct (Hm k v (or_introl eq_refl)) as [x Hx]. destruct IH as [l F]; [intros k' v' Hi; apply (Hm k'); now right|].
    exists ((k, x) :: l). constructor; [split; auto|exact F]. }
  pose proof F as F'. apply entries_iff in F. destruct (fold_insert l _ eq_refl) as [Hn' H'].
  eexists. split.
  - unfold vp_of_text. rewrite P. cbn [vp_of_json]. unfold vp_of_entries. rewrite F. cbn [rbind]. reflexivity.
  - apply NoDup_Permutation; [now apply nodup_keys|now apply nodup_keys|].
    intros [id x]. rewrite H, H'. symmetry. now apply last_entry_transfer.
Qed.

(* ------------------------------------------------------------ C43 *)
Lemma form_enc_chars s : value_chars (form_enc s).
Proof. repeat split; apply form_enc_no; reflexivity. Qed.

(** C43: the body of an unencoded response is "vp_token=A" or "vp_token=A&state=B" where A and B contain
    neither '&' nor '='; read as a form it has exactly those pairs, A decoding to JSON text of the token
    and B to the state. *)
Lemma c43_no_injection_pf :
  forall (t : vp_token) (st : option string), token_ok t -> state_ok st ->
    exists a text, value_chars a /\ form_dec a = text
      /\ (nested_at_most 125 t -> token_text text t)
      /\ match st with
         | None => unencoded_form (mk_unencoded t st) = "vp_token=" +:+ a
                   /\ form_parse (unencoded_form (mk_unencoded t st)) = [("vp_token", text)]
         | Some s => exists b, value_chars b /\ form_dec b = s
                   /\ unencoded_form (mk_unencoded t st) = "vp_token=" +:+ a +:+ "&state=" +:+ b
                   /\ form_parse (unencoded_form (mk_unencoded t st)) = [("vp_token", text); ("state", s)]
         end.
Proof.
  intros t st Ht Hs. exists (form_enc (vp_print t)), (vp_print t).
  assert (U : utf8_valid (vp_print t) = true) by (apply jprint_utf8; now apply members_text_ok).
  split; [apply form_enc_chars|]. split; [now apply form_dec_enc|].
  split; [intros D; apply vp_text_sound; now apply vp_text_rt|].
  pose proof (pairs_utf8 (mk_unencoded t st) Ht Hs) as F.
  destruct st as [s|].
  - exists (form_enc s). split; [apply form_enc_chars|]. split; [apply form_dec_enc; now apply Hs|]. split.
    + unfold unencoded_form, form_serialize, unencoded_pairs. cbn [ur_vp_token ur_state map fst snd join].
      rewrite sapp_assoc. reflexivity.
    + unfold unencoded_form. now rewrite form_parse_serialize.
  - split; [reflexivity|]. unfold unencoded_form. now rewrite form_parse_serialize.
Qed.

Example c43_no_injection_ex :
  token_ok toy_token /\ state_ok (Some "&vp_token={}") /\
  unencoded_form (mk_unencoded [("a", [VpString "&x="])] (Some "&vp_token={}"))
  = "vp_token=%7B%22a%22%3A%5B%22%26x%3D%22%5D%7D&state=%26vp_token%3D%7B%7D".
Proof. split; [apply c42_roundtrip_ex|]. split; [apply c42_roundtrip_ex|]. vm_compute. reflexivity. Qed.

(** C43: responses with the same form body are the same response, at any depth. *)
Lemma c43_injective_pf :
  forall (t t' : vp_token) (st st' : option string),
    token_ok t -> token_ok t' -> state_ok st -> state_ok st' ->
    unencoded_form (mk_unencoded t st) = unencoded_form (mk_unencoded t' st') -> t = t' /\ st = st'.
Proof.
  intros t t' st st' Ht Ht' Hs Hs' E. apply (f_equal form_parse) in E. unfold unencoded_form in E.
  rewrite !form_parse_serialize in E by (apply pairs_utf8; assumption).
  unfold unencoded_pairs in E. cbn [ur_vp_token ur_state] in E.
  pose proof (f_equal (fun l => match l with (_, v) :: _ => v | [] => EmptyString end) E) as E1.
  pose proof (f_equal (@tl (string * string)) E) as E2. cbn [tl] in E2. cbv beta iota in E1. clear E.
  split; [|destruct st, st'; congruence].
  assert (M : JObj (vp_members t) = JObj (vp_members t')).
  { apply members_text_ok in Ht, Ht'. revert Ht Ht' E1. unfold vp_print.
    generalize (JObj (vp_members t)) (JObj (vp_members t')). intros j k Hj Hk E.
    pose proof (parse_print_deep j (S (Nat.max (jdepth j) (jdepth k))) Hj ltac:(lia)) as P.
    pose proof (parse_print_deep k (S (Nat.max (jdepth j) (jdepth k))) Hk ltac:(lia)) as Q.
    rewrite E in P. rewrite P in Q. now injection Q. }
  injection M as M. clear - M. revert t' M. induction t as [|[k l] t IH]; intros [|[k' l'] t'] M; try discriminate; [reflexivity|].
  cbn [vp_members map fst snd] in M. injection M as -> Ml M. f_equal; [|now apply IH]. f_equal.
  clear - Ml. revert l' Ml. induction l as [|i l IH]; intros [|i' l'] M; try discriminate; [reflexivity|].
  cbn [map] in M. injection M as Mi M. f_equal; [|now apply IH]. destruct i, i'; cbn in Mi; congruence.
Qed.

Example c43_injective_ex : token_ok toy_token /\ state_ok None.
Proof. split; [apply c42_roundtrip_ex|discriminate]. Qed.

(* ------------------------------------------------------------ C44 *)
(** C44: a body is read as an encrypted response exactly when it has exactly one 'response' parameter,
    whatever else it contains. *)
Lemma c44_encrypted_pf :
  forall (body r : string), from_form body = Ok (Jwt r) <-> single "response" r (form_parse body).
Proof.
  intros body r. rewrite <- values_single. unfold from_form. change field_values with values_of.
  destruct (values_of "response" (form_parse body)) as [|x [|y l]].
  - split; [|discriminate]. destruct (match values_of "state" _ with [] => _ | _ => _ end); cbn [rbind]; [|discriminate].
    destruct (match values_of "vp_token" _ with [] => _ | _ => _ end) as [v|]; cbn [rbind]; [|discriminate].
    destruct (vp_of_text v); cbn [rbind]; discriminate.
  - split; congruence.
  - split; [|discriminate]. destruct (match values_of "state" _ with [] => _ | _ => _ end); cbn [rbind]; [|discriminate].
    destruct (match values_of "vp_token" _ with [] => _ | _ => _ end) as [v|]; cbn [rbind]; [|discriminate].
    destruct (vp_of_text v); cbn [rbind]; discriminate.
Qed.

Example c44_encrypted_ex :
  single "response" "x" (form_parse "vp_token={}&response=x&state=s")
  /\ (forall r, ~ single "response" r (form_parse "response=x&vp_token={}&response=y")).
Proof. split; [apply c44_encrypted_pf|intros r H; apply c44_encrypted_pf in H; vm_compute in H; discriminate]. vm_compute. reflexivity. Qed.

(** C44: a body is read as an unencoded response exactly when it does not have exactly one 'response'
    parameter, has exactly one 'vp_token' parameter, which is the JSON text of the token, and at most one
    'state' parameter, which is the state. *)
Lemma c44_unencoded_pf :
  forall (body : string) (st : option string),
    (forall t, from_form body = Ok (Unencoded (mk_unencoded t st)) ->
       (forall r, ~ single "response" r (form_parse body))
       /\ (exists v, single "vp_token" v (form_parse body) /\ token_text v t)
       /\ optional "state" st (form_parse body))
    /\ (forall t v, (forall r, ~ single "response" r (form_parse body)) ->
       single "vp_token" v (form_parse body) -> token_text v t -> optional "state" st (form_parse body) ->
       exists t', Permutation t t' /\ from_form body = Ok (Unencoded (mk_unencoded t' st))).
Proof.
  intros body st.
  assert (R : (forall r, ~ single "response" r (form_parse body)) ->
     from_form body = let? st := match values_of "state" (form_parse body) with
                 | [] => Ok None
                 | [s] => Ok (Some s)
                 | _ => Err "duplicate field `state`"
                 end in
      let? vt := match values_of "vp_token" (form_parse body) with
                 | [] => Err "missing field `vp_token`"
                 | [v] => Ok v
                 | _ => Err "duplicate field `vp_token`"
                 end in
      let? t := vp_of_text vt in
      Ok (Unencoded (mk_unencoded t st))).
  { intros H. unfold from_form. change field_values with values_of.
    destruct (values_of "response" (form_parse body)) as [|x [|y l]] eqn:E; try reflexivity.
    apply values_single in E. destruct (H _ E). }
  split.
  - intros t H. assert (Hr : forall r, ~ single "response" r (form_parse body)).
    { intros r Hs. apply c44_encrypted_pf in Hs. congruence. }
    split; [exact Hr|]. rewrite (R Hr) in H.
    destruct (values_of "state" (form_parse body)) as [|s [|s' l]] eqn:Es; cbn [rbind] in H; [| |discriminate];
      (destruct (values_of "vp_token" (form_parse body)) as [|v [|v' l']] eqn:Ev; cbn [rbind] in H;
        [discriminate| |discriminate]; destruct (vp_of_text v) as [t'|] eqn:Et; cbn [rbind] in H; [|discriminate];
        injection H as <- <-; apply values_single in Ev; apply vp_text_sound in Et;
        split; [eauto|]; cbn [optional]).
    + now apply values_none.
    + now apply values_single.
  - intros t v Hr Hv Ht Hs. rewrite (R Hr). apply values_single in Hv. rewrite Hv.
    apply vp_text_complete in Ht as (t' & E & P). exists t'. split; [exact P|].
    destruct st as [s|]; cbn [optional] in Hs.
    + apply values_single in Hs. rewrite Hs. cbn [rbind]. now rewrite E.
    + apply values_none in Hs. rewrite Hs. cbn [rbind]. now rewrite E.
Qed.

Example c44_unencoded_ex :
  from_form "vp_token=%7B%22a%22:[%22x%22],%22b%22:[],%22a%22:[]%7D&state=s&unknown=1"
  = Ok (Unencoded (mk_unencoded [("a", []); ("b", [])] (Some "s"))).
Proof. vm_compute. reflexivity. Qed.

(* ------------------------------------------------------------ C71: responses as JSON *)
(** C71: a response converted to JSON is read back as the same response. *)
Lemma c71_roundtrip_pf :
  (forall (t : vp_token) (st : option string), token_ok t ->
     exists t', response_of_json (response_to_json (Unencoded (mk_unencoded t st)))
                = Ok (Unencoded (mk_unencoded t' st)) /\ Permutation t t')
  /\ (forall jwt : string, response_of_json (response_to_json (Jwt jwt)) = Ok (Jwt jwt)).
Proof.
  split; [|reflexivity]. intros t st H.
  destruct (vp_json_rt t (proj1 H) (members_sorted_items t H)) as (t' & E & P).
  exists t'. split; [|exact P]. unfold response_of_json, response_to_json, unencoded_of_json, unencoded_to_json.
  cbn [ur_vp_token ur_state].
  assert (G : forall st, de_fields ["vp_token"; "state"] (ser_struct [("vp_token", Some (vp_to_json t)); ("state", option_map JStr st)])
     = Ok [FVal (vp_to_json t); match st with Some s => FVal (JStr s) | None => FMissing end]).
  { intros [s|]; reflexivity. }
  rewrite G. cbn [rbind nth_fld nth f_req]. rewrite E. cbn [rbind]. destruct st; reflexivity.
Qed.

Example c71_roundtrip_ex :
  response_of_json (response_to_json (Unencoded (mk_unencoded toy_token (Some "s"))))
  = Ok (Unencoded (mk_unencoded (rev toy_token) (Some "s"))).
Proof. vm_compute. reflexivity. Qed.

(** C71: a JSON object is read as an encrypted response only if it is not a readable unencoded one: as JSON,
    unlike as a form, the unencoded reading takes precedence. *)
Lemma c71_precedence_pf :
  (forall (o : obj) (r : string), response_of_json (JObj o) = Ok (Jwt r) <->
     obj_get "response" o = Some (JStr r) /\ exists e, unencoded_of_obj o = Err e)
  /\ (forall (o : obj) (u : unencoded), response_of_json (JObj o) = Ok (Unencoded u) <-> unencoded_of_obj o = Ok u)
  /\ (exists a b, from_form (form_serialize [("vp_token", "{}"); ("response", "x")]) = Ok a
      /\ response_of_json (JObj [("response", JStr "x"); ("vp_token", JObj [])]) = Ok b
      /\ a = Jwt "x" /\ b = Unencoded (mk_unencoded [] None)).
Proof.
  split; [|split].
  - intros o r. unfold response_of_json, unencoded_of_obj. destruct (unencoded_of_json (JObj o)) as [u|e].
    + split; [discriminate|]. intros [_ [e E]]. discriminate.
    + unfold jwt_of_json. cbn [de_fields map rbind nth_fld nth].
      destruct (obj_get "response" o) as [v|]; cbn [f_req rmap].
      * destruct v; cbn; split; intros H; try discriminate H; try (destruct H; discriminate).
        -- injection H as ->. eauto.
        -- destruct H as [H _]. congruence.
      * split; [discriminate|]. intros [H _]. discriminate.
  - intros o u. unfold response_of_json, unencoded_of_obj. destruct (unencoded_of_json (JObj o)) as [u'|e].
    + split; congruence.
    + split; [|discriminate]. destruct (jwt_of_json (JObj o)); discriminate.
  - exists (Jwt "x"), (Unencoded (mk_unencoded [] None)). repeat split; vm_compute; reflexivity.
Qed.

Example c71_precedence_ex : exists u, unencoded_of_obj [("response", JStr "x"); ("vp_token", JObj [])] = Ok u.
Proof. eexists. vm_compute. reflexivity. Qed.
