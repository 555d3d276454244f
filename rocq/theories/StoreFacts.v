From Coq Require Import Lia Sorted.
From Verif Require Import Base BaseFacts Json Request Dcql Response Session.

Definition ssorted (m : store) : Prop := StronglySorted (fun a b => (fst a < fst b)%N) m.

Lemma st_get_insert u u' s m : st_get u (st_insert u' s m) = if (u =? u')%N then Some s else st_get u m.
Proof.
  induction m as [|[k v] m IH]; cbn [st_insert st_get].
  - destruct (u =? u')%N; reflexivity.
  - destruct (N.compare_spec u' k) as [->|L|G]; cbn [st_get].
    + destruct (N.eqb_spec u k); reflexivity.
    + destruct (N.eqb_spec u u'); reflexivity.
    + rewrite IH. destruct (N.eqb_spec u k) as [->|]; [|reflexivity].
      destruct (N.eqb_spec k u'); [lia|reflexivity].
Qed.
Lemma st_get_lt u m : Forall (fun kv => (u < fst kv)%N) m -> st_get u m = None.
Proof.
  induction 1 as [|[k v] m H _ IH]; [reflexivity|]. cbn in *. destruct (N.eqb_spec u k); [lia|exact IH].
Qed.
Lemma st_get_remove u u' m : ssorted m -> st_get u (st_remove u' m) = if (u =? u')%N then None else st_get u m.
Proof.
  induction 1 as [|[k v] m S IH F]; cbn [st_remove st_get]; [now destruct (u =? u')%N|].
  destruct (N.eqb_spec u' k) as [->|N0].
  - destruct (N.eqb_spec u k) as [->|]; [|reflexivity]. apply st_get_lt. exact F.
  - cbn [st_get]. rewrite IH. destruct (N.eqb_spec u k) as [->|]; [|reflexivity]. destruct (N.eqb_spec k u'); [lia|reflexivity].
Qed.
Lemma forall_insert (P : uuid * session -> Prop) u s m : P (u, s) -> Forall P m -> Forall P (st_insert u s m).
Proof.
  intros H. induction 1 as [|[k v] m H1 H2 IH]; cbn [st_insert]; [auto|]. destruct (N.compare u k); auto.
Qed.
Lemma forall_remove (P : uuid * session -> Prop) u m : Forall P m -> Forall P (st_remove u m).
Proof. induction 1 as [|[k v] m H1 H2 IH]; cbn [st_remove]; [auto|]. destruct (u =? k)%N; auto. Qed.
Lemma ssorted_insert u s m : ssorted m -> ssorted (st_insert u s m).
Proof.
  unfold ssorted. induction 1 as [|[k v] m S IH F]; cbn [st_insert]; [repeat constructor|].
  destruct (N.compare_spec u k) as [->|L|G].
  - constructor; assumption.
  - constructor; [now constructor|]. constructor; [exact L|]. eapply Forall_impl; [|exact F]. cbn. intros a. cbn. lia.
  - constructor; [exact IH|]. apply forall_insert; [exact G|exact F].
Qed.
Lemma ssorted_remove u m : ssorted m -> ssorted (st_remove u m).
Proof.
  unfold ssorted. induction 1 as [|[k v] m S IH F]; cbn [st_remove]; [constructor|].
  destruct (u =? k)%N; [exact S|]. constructor; [exact IH|]. now apply forall_remove.
Qed.
Lemma st_get_in u s m : st_get u m = Some s -> In (u, s) m.
Proof.
  induction m as [|[k v] m IH]; cbn [st_get]; [discriminate|]. destruct (N.eqb_spec u k) as [->|]; [intros H; injection H as ->; now left|right; auto].
Qed.
