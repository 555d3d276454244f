(** Facts about building maps from lists and about derived struct (de)serialisers. *)
From Coq Require Import Sorting.Permutation Lia.
From Verif Require Import Base BaseFacts Json JsonFacts Serde.

Lemma obj_insert_perm k v m :
  obj_get k m = None -> Permutation (obj_insert k v m) ((k, v) :: m).
Proof.
  induction m as [|[k' v'] r IH]; cbn [obj_insert obj_get]; intros H; [reflexivity|].
  destruct (String.eqb k k') eqn:E; [discriminate|].
  destruct (str_cmp k k') eqn:C.
  - apply str_cmp_eq in C. subst. rewrite String.eqb_refl in E. discriminate.
  - reflexivity.
  - rewrite (IH H). apply perm_swap.
Qed.

Lemma fold_ins_perm l : forall m,
  NoDup (map fst (l ++ m)) -> Permutation (fold_left ins1 l m) (l ++ m).
Proof.
  induction l as [|[k v] l IH]; cbn [fold_left app]; intros m H; [reflexivity|].
  assert (Hk : obj_get k m = None).
  { apply obj_get_none. cbn [map fst app] in H. inversion H as [|? ? Hn Hd]; subst.
    intros Hi. apply Hn. rewrite map_app. apply in_or_app. now right. }
  unfold ins1 at 2. cbn [fst snd].
  assert (P : Permutation (obj_insert k v m) ((k, v) :: m)) by now apply obj_insert_perm.
  rewrite IH.
  - rewrite P. symmetry. apply Permutation_middle.
  - rewrite P. eapply Permutation_NoDup; [|exact H]. apply Permutation_map. apply Permutation_middle.
Qed.

Lemma obj_of_list_permutation l : NoDup (map fst l) -> Permutation (obj_of_list l) l.
Proof.
  intros H. rewrite obj_of_list_fold. rewrite fold_ins_perm; rewrite app_nil_r; [reflexivity|exact H].
Qed.

(** Members of a struct given as (name, optional value). *)
Fixpoint assoc_opt (k : string) (l : list (string * option json)) : option json :=
  match l with
  | [] => None
  | (k', v) :: r => if String.eqb k k' then v else assoc_opt k r
  end.

Definition members (l : list (string * option json)) : list (string * json) :=
  flat_map (fun kv => match snd kv with Some v => [(fst kv, v)] | None => [] end) l.

Lemma members_in k l : In k (map fst (members l)) -> In k (map fst l).
Proof.
  induction l as [|[k' [v|]] r IH]; cbn; intros H; [easy| |right; auto].
  destruct H as [H|H]; auto.
Qed.

Lemma members_nodup l : NoDup (map fst l) -> NoDup (map fst (members l)).
Proof.
  induction l as [|[k [v|]] r IH]; cbn; intros H; [constructor| |].
  - inversion H as [|? ? Hn Hd]; subst. constructor; [|now apply IH].
    intros Hi. apply Hn. now apply members_in.
  - inversion H; auto.
Qed.

Lemma members_get k l : NoDup (map fst l) -> obj_get k (members l) = assoc_opt k l.
Proof.
  induction l as [|[k' [v|]] r IH]; intros H; [reflexivity| |].
  - cbn [members flat_map snd fst app obj_get assoc_opt]. inversion H; subst.
    destruct (String.eqb k k'); [reflexivity|now apply IH].
  - cbn [members flat_map snd fst app assoc_opt]. inversion H as [|? ? Hn Hd]; subst.
    destruct (String.eqb k k') eqn:E; [|now apply IH].
    apply String.eqb_eq in E. subst. apply obj_get_none. intros Hi. apply Hn.
    now apply members_in.
Qed.

Lemma ser_struct_get k l :
  NoDup (map fst l) -> obj_get k (obj_of_list (members l)) = assoc_opt k l.
Proof.
  intros H. rewrite get_of_list, last_get_nodup by now apply members_nodup. now apply members_get.
Qed.

Lemma de_fields_ser names l :
  NoDup (map fst l) ->
  de_fields names (ser_struct l) =
  Ok (map (fun k => match assoc_opt k l with Some v => FVal v | None => FMissing end) names).
Proof.
  intros H. unfold ser_struct, de_fields. f_equal. apply map_ext. intros k.
  fold (members l). now rewrite ser_struct_get.
Qed.

Lemma f_opt_some {A} (f : json -> res A) (g : A -> json) (o : option A) :
  (forall a, o = Some a -> f (g a) = Ok a) ->
  (forall a, o = Some a -> g a <> JNull) ->
  f_opt f (match option_map g o with Some v => FVal v | None => FMissing end) = Ok o.
Proof.
  destruct o as [a|]; cbn; intros H H'; [|reflexivity].
  specialize (H a eq_refl). specialize (H' a eq_refl). unfold de_opt.
  destruct (g a) eqn:E; try contradiction; now rewrite H.
Qed.

Lemma str_nodup_dec (l : list string) :
  (fix nd l := match l with [] => true | x :: r => negb (mem_str x r) && nd r end) l = true -> NoDup l.
Proof.
  induction l as [|x r IH]; intros H; [constructor|].
  apply andb_prop in H as [H1 H2]. constructor; [|now apply IH].
  intros Hi. apply mem_str_iff in Hi. rewrite Hi in H1. discriminate.
Qed.

Lemma de_str_JStr s : de_str (JStr s) = Ok s.
Proof. reflexivity. Qed.

Lemma de_list_map {A} (f : json -> res A) (g : A -> json) l :
  Forall (fun a => f (g a) = Ok a) l -> de_list f (JArr (map g l)) = Ok l.
Proof. intros H. cbn [de_list]. now apply mapM_id. Qed.

Lemma de_list_strs l : de_list de_str (jstrs l) = Ok l.
Proof. apply de_list_map. apply Forall_forall. reflexivity. Qed.

Lemma Forall_all {A} (P : A -> Prop) l : (forall a, P a) -> Forall P l.
Proof. intros H. apply Forall_forall. auto. Qed.

Lemma mapM_perm {A B} (f : A -> res B) l l' : Permutation l l' ->
  forall r, mapM f l = Ok r -> exists r', mapM f l' = Ok r' /\ Permutation r r'.
Proof.
  induction 1 as [|x l l' P IH|x y l|l l' l'' P1 IH1 P2 IH2]; intros r H.
  - exists r. split; [exact H|reflexivity].
  - cbn [mapM] in *. apply rbind_ok in H as (b & Hb & H). apply rbind_ok in H as (bs & Hbs & H).
    injection H as <-. destruct (IH _ Hbs) as (r' & Hr & Hp). exists (b :: r').
    rewrite Hb. cbn [rbind]. rewrite Hr. cbn [rbind]. split; [reflexivity|now constructor].
  - cbn [mapM] in *. apply rbind_ok in H as (b & Hb & H). apply rbind_ok in H as (bs & Hbs & H).
    apply rbind_ok in Hbs as (c & Hc & Hbs). apply rbind_ok in Hbs as (cs & Hcs & Hbs).
    injection Hbs as <-. injection H as <-.
    exists (c :: b :: cs). rewrite Hc. cbn [rbind]. rewrite Hb. cbn [rbind]. rewrite Hcs. cbn [rbind].
    split; [reflexivity|apply perm_swap].
  - destruct (IH1 _ H) as (r1 & H1 & P1'). destruct (IH2 _ H1) as (r2 & H2 & P2').
    exists r2. split; [exact H2|]. now transitivity r1.
Qed.
