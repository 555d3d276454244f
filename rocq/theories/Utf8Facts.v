(** Lemmas about [Utf8]. *)
From Verif Require Import Base BaseFacts Utf8.
From Coq Require Import Lia.

Lemma utf8_go_app a : forall p b,
  utf8_go p a = true -> utf8_go p (a +:+ b) = utf8_valid b.
Proof.
  induction a as [|c a IH]; intros p b; cbn.
  - destruct p; [reflexivity|discriminate].
  - destruct p as [|[lo hi] p].
    + destruct (utf8_start c); [apply IH|discriminate].
    + rewrite andb_true_iff; intros [-> H]; cbn; apply IH; exact H.
Qed.

Lemma utf8_valid_app a b : utf8_valid a = true -> utf8_valid (a +:+ b) = utf8_valid b.
Proof. apply utf8_go_app. Qed.

Lemma utf8_valid_cat a b : utf8_valid a = true -> utf8_valid b = true -> utf8_valid (a +:+ b) = true.
Proof. intros Ha Hb; rewrite utf8_valid_app; assumption. Qed.

Definition is_ascii (c : ascii) : bool := (byte c <? 128)%N.

Lemma utf8_ascii s : str_all is_ascii s = true -> utf8_valid s = true.
Proof.
  unfold utf8_valid. induction s as [|c s IH]; cbn; [reflexivity|].
  rewrite andb_true_iff; intros [Hc Hs]. unfold utf8_start.
  unfold is_ascii in Hc. rewrite Hc. auto.
Qed.

Lemma utf8_cons_ascii c s : is_ascii c = true -> utf8_valid (String c s) = utf8_valid s.
Proof. unfold utf8_valid, is_ascii; cbn; unfold utf8_start; intros ->; reflexivity. Qed.

(** Lossy decoding changes nothing in valid text. *)
Lemma lossy_go_valid s : forall p acc,
  utf8_go p s = true ->
  lossy_go p acc s = (match p with [] => EmptyString | _ => acc end) +:+ s.
Proof.
  induction s as [|c s IH]; intros p acc; cbn.
  - destruct p; [reflexivity|discriminate].
  - destruct p as [|[lo hi] p].
    + destruct (utf8_start c) as [[|q p]|]; [| |discriminate]; intros H.
      * rewrite IH by exact H. reflexivity.
      * rewrite IH by exact H. reflexivity.
    + rewrite andb_true_iff; intros [-> H].
      destruct p as [|q p].
      * rewrite IH by exact H. reflexivity.
      * rewrite IH by exact H. rewrite sapp_assoc. reflexivity.
Qed.

Lemma utf8_lossy_valid s : utf8_valid s = true -> utf8_lossy s = s.
Proof. intros H. unfold utf8_lossy. rewrite lossy_go_valid by exact H. reflexivity. Qed.

(** The result of lossy decoding is always valid. *)
Lemma fffd_valid s : utf8_valid (fffd +:+ s) = utf8_valid s.
Proof. apply utf8_valid_app. vm_compute. reflexivity. Qed.

Lemma utf8_go_snoc acc : forall p q c lo hi,
  (forall s, utf8_go p (acc +:+ s) = utf8_go ((lo, hi) :: q) s) ->
  in_range lo hi c = true ->
  forall s, utf8_go p ((acc +:+ s1 c) +:+ s) = utf8_go q s.
Proof.
  intros p q c lo hi H Hc s. rewrite sapp_assoc, H. cbn. rewrite Hc; reflexivity.
Qed.

Lemma lossy_go_valid_out s : forall p acc,
  (p = [] \/ forall t, utf8_go [] (acc +:+ t) = utf8_go p t) ->
  utf8_valid (lossy_go p acc s) = true.
Proof.
  induction s as [|c s IH]; intros p acc Hinv; cbn [lossy_go].
  - destruct p; reflexivity.
  - assert (utf8_valid
       (match utf8_start c with
        | None => fffd +:+ lossy_go [] EmptyString s
        | Some [] => String c (lossy_go [] EmptyString s)
        | Some p => lossy_go p (s1 c) s
        end) = true) as Hr.
    { destruct (utf8_start c) as [[|q p']|] eqn:E.
      - unfold utf8_valid; cbn. rewrite E. apply IH; auto.
      - apply IH. right. intros t; cbn. rewrite E. reflexivity.
      - rewrite fffd_valid. apply IH; auto. }
    destruct p as [|[lo hi] p]; [exact Hr|].
    destruct (in_range lo hi c) eqn:Er; [|rewrite fffd_valid; exact Hr].
    destruct Hinv as [|Hinv]; [discriminate|].
    pose proof (utf8_go_snoc acc [] p c lo hi Hinv Er) as Hs.
    destruct p as [|q p].
    + change (String c (lossy_go [] EmptyString s)) with (s1 c +:+ lossy_go [] EmptyString s).
      rewrite <- sapp_assoc. unfold utf8_valid. rewrite Hs. apply IH; auto.
    + apply IH. right. exact Hs.
Qed.

Lemma utf8_lossy_is_valid s : utf8_valid (utf8_lossy s) = true.
Proof. apply lossy_go_valid_out; auto. Qed.
