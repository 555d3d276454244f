(** Proofs: the JSON form of statuses. *)
From Verif Require Import Base Utf8 Json JsonText Serde Session StatusJson SpecStatus JsonFacts BaseFacts JsonTextFacts PfText.

Lemma one_field_iff {A} (f : json -> res A) k j (a : A) :
  one_field f k j = Ok a <-> exists v, gives_field k j v /\ f v = Ok a.
Proof.
  split.
  - destruct j as [| | | | |l|m]; cbn [one_field]; try discriminate.
    + destruct l as [|v [|? ?]]; try discriminate. intros H. exists v. split; [right; reflexivity|exact H].
    + destruct (filter _ m) as [|[k' v] [|? ?]] eqn:F; try discriminate. intros H. exists v. split; [left|exact H].
      revert F. clear H. induction m as [|[k0 v0] r IH]; cbn [filter fst]; [discriminate|].
      destruct (String.eqb_spec k k0) as [->|N]; intros F.
      * injection F as -> -> F. exists [], r. split; [reflexivity|]. cbn [app]. intros I. apply in_map_iff in I as ([k1 v1] & E & I).
        cbn [fst] in E. subst k1.
        assert (X : In (k', v1) (filter (fun kv => String.eqb k' (fst kv)) r)).
        { apply filter_In. split; [exact I|]. cbn [fst]. apply String.eqb_refl. }
        rewrite F in X. exact X.
      * destruct (IH F) as (b & c & E & I). injection E as ->. exists ((k0, v0) :: b), c. split; [reflexivity|].
        cbn [app map fst In]. intros [X|X]; [apply N; symmetry; exact X|exact (I X)].
  - intros (v & [(b & c & -> & I)| ->] & H); cbn [one_field]; [|exact H].
    assert (Z : forall l, ~ In k (map fst l) -> filter (fun kv : string * json => String.eqb k (fst kv)) l = []).
    { induction l as [|[k0 v0] r IH]; [reflexivity|]. cbn [map fst In filter]. intros N.
      destruct (String.eqb_spec k k0) as [->|D]; [exfalso; apply N; left; reflexivity|]. apply IH. intros X. apply N. right. exact X. }
    rewrite filter_app. cbn [filter fst]. rewrite String.eqb_refl.
    rewrite map_app in I.
    rewrite (Z b) by (intros X; apply I, in_or_app; left; exact X).
    rewrite (Z c) by (intros X; apply I, in_or_app; right; exact X). cbn [app]. exact H.
Qed.
Lemma rmap_ok {A B} (f : A -> B) (r : res A) b : rmap f r = Ok b <-> exists a, r = Ok a /\ b = f a.
Proof.
  destruct r as [a|]; cbn [rmap]; split.
  - intros H. exists a. split; [reflexivity|congruence].
  - intros (a' & E & ->). congruence.
  - discriminate.
  - intros (a' & E & _). discriminate.
Qed.
Lemma de_str_iff j s : de_str j = Ok s <-> j = JStr s.
Proof. destruct j; cbn; split; intros H; congruence. Qed.

Lemma outcome_iff j o : outcome_of_raw j = Ok o <-> tells_outcome j o.
Proof.
  split.
  - destruct j as [| | | | | |[|[k v] [|? ?]]]; cbn [outcome_of_raw]; try discriminate.
    destruct (String.eqb_spec k "Error") as [->|_]; [|destruct (String.eqb_spec k "Failure") as [->|_]; [|destruct (String.eqb_spec k "Success") as [->|_]; [|discriminate]]];
      intros H; apply rmap_ok in H as (a & H & ->); apply one_field_iff in H as (w & G & H).
    + apply de_str_iff in H as ->. constructor. exact G.
    + apply de_str_iff in H as ->. constructor. exact G.
    + injection H as <-. constructor. exact G.
  - intros T. destruct T as [v s G|v s G|v s G]; cbn [outcome_of_raw].
    + change (String.eqb "Error" "Error") with true. cbv iota. apply rmap_ok. exists s. split; [|reflexivity]. apply one_field_iff. exists (JStr s). split; [exact G|reflexivity].
    + change (String.eqb "Failure" "Error") with false. change (String.eqb "Failure" "Failure") with true. cbv iota.
      apply rmap_ok. exists s. split; [|reflexivity]. apply one_field_iff. exists (JStr s). split; [exact G|reflexivity].
    + change (String.eqb "Success" "Error") with false. change (String.eqb "Success" "Failure") with false. change (String.eqb "Success" "Success") with true. cbv iota.
      apply rmap_ok. exists (normalize s). split; [|reflexivity]. apply one_field_iff. exists s. split; [exact G|reflexivity].
Qed.
Lemma unit_iff k st : unit_status k = Ok st <-> plain_name st k.
Proof.
  unfold unit_status, plain_name. split.
  - destruct (String.eqb_spec k "SentRequestByReference") as [->|_]; [|destruct (String.eqb_spec k "SentRequest") as [->|_]; [|destruct (String.eqb_spec k "ReceivedResponse") as [->|_]; [|discriminate]]];
      intros H; injection H as <-; auto.
  - intros [[-> ->]|[[-> ->]|[-> ->]]]; reflexivity.
Qed.
Lemma status_iff j st : status_of_raw j = Ok st <-> tells_status j st.
Proof.
  split.
  - destruct j as [| | | |s| |[|[k v] [|? ?]]]; cbn [status_of_raw]; try discriminate.
    + intros H. apply unit_iff in H. constructor. exact H.
    + destruct (String.eqb_spec k "Complete") as [->|_].
      * intros H. apply rmap_ok in H as (o & H & ->). constructor. apply outcome_iff. exact H.
      * destruct v; try discriminate. intros H. apply unit_iff in H. constructor. exact H.
  - intros T. destruct T as [st n P|st n P|v o P]; cbn [status_of_raw].
    + apply unit_iff. exact P.
    + destruct P as [[-> ->]|[[-> ->]|[-> ->]]]; reflexivity.
    + change (String.eqb "Complete" "Complete") with true. cbv iota. apply rmap_ok. exists o. split; [apply outcome_iff; exact P|reflexivity].
Qed.

(** C93: which text is which status: exactly the JSON texts that name a waiting status, or give the outcome of a complete
    one with its one field. *)
Lemma c93_reads_pf
  : forall (text : string) (st : status),
    status_of_text text = Ok st <-> exists j, parse_raw text = Some j /\ tells_status j st.
Proof.
  intros t st. unfold status_of_text. destruct (parse_raw t) as [j|]; cbn [ok_or rbind].
  - rewrite status_iff. split; [intros H; exists j; split; [reflexivity|exact H]|intros (j' & E & H); injection E as <-; exact H].
  - split; [discriminate|intros (j' & E & _); discriminate].
Qed.
Example c93_reads_ex :
  status_of_text "{""Complete"": {""Failure"": {""note"": 1, ""reason"": ""no""}}}" = Ok (Complete (OFailure "no"))
  /\ status_of_text "{""SentRequest"": null}" = Ok SentRequest
  /\ is_ok (status_of_text "{""Complete"": {""Failure"": {""reason"": ""a"", ""reason"": ""b""}}}") = false
  /\ is_ok (status_of_text "{""Complete"": ""Success""}") = false.
Proof. repeat split; vm_compute; reflexivity. Qed.

(** C93: a status written as JSON text is read back as the same status, with its cause, reason or information, as long as
    the information is nested at most 124 deep; deeper information cannot be read back at all. *)
Lemma c93_roundtrip_pf
  : forall st : status, proper st ->
    (info_depth st <= 124 -> status_of_text (status_to_text st) = Ok st)
    /\ (124 < info_depth st -> forall st', status_of_text (status_to_text st) <> Ok st').
Proof.
  intros st P.
  assert (W : jwf (status_to_json st) = true).
  { destruct st as [| | |[s|s|i]]; try reflexivity; cbn [proper] in P; unfold jwf in *; cbn [status_to_json outcome_to_json jtext_ok jsorted keys_sorted forallb fst snd].
    - rewrite P. reflexivity.
    - rewrite P. reflexivity.
    - apply andb_prop in P as [P1 P2]. rewrite P1, P2. reflexivity. }
  assert (D : jdepth (status_to_json st) <= 3 + info_depth st /\ (0 < info_depth st -> jdepth (status_to_json st) = 3 + info_depth st)).
  { assert (Z : forall n, Nat.max n 0 = n) by (intros n; apply Nat.max_0_r).
    destruct st as [| | |[s|s|i]]; cbn [status_to_json outcome_to_json jdepth map snd fold_right info_depth]; rewrite ?Z; cbn [Nat.add];
      (split; [auto using Nat.le_0_l, le_n_S|intros X; try reflexivity; inversion X]). }
  destruct D as [D1 D2]. split.
  - intros L. unfold status_of_text, status_to_text. rewrite parse_raw_print.
    + cbn [ok_or rbind]. destruct st as [| | |[s|s|i]]; try reflexivity.
      cbn. apply andb_prop in P as [_ P2]. rewrite normalize_sorted by exact P2. reflexivity.
    + apply andb_prop in W as [W _]. exact W.
    + apply (Nat.le_trans _ _ _ D1). change 127 with (3 + 124). apply Nat.add_le_mono_l. exact L.
  - intros L st' H. unfold status_of_text, status_to_text in H.
    assert (N : json_of_text (jprint (status_to_json st)) = None).
    { apply (proj2 (c66_roundtrip_pf _ W)). rewrite D2 by (apply Nat.lt_trans with 124; [repeat constructor|exact L]).
      change 127 with (3 + 124). apply Nat.add_lt_mono_l. exact L. }
    unfold json_of_text in N. destruct (parse_raw _); [discriminate|discriminate].
Qed.
Example c93_roundtrip_ex :
  let st := Complete (OSuccess (JObj [("credentials_received", JInt 1)])) in
  proper st /\ info_depth st = 1
  /\ status_to_text st = "{""Complete"":{""Success"":{""info"":{""credentials_received"":1}}}}".
Proof. cbv zeta. repeat split; vm_compute; reflexivity. Qed.

(** C93: statuses that differ in anything, also in what [==] ignores, have different texts. *)
Lemma c93_faithful_pf
  : forall st st' : status, proper st -> proper st' -> status_to_text st = status_to_text st' -> st = st'.
Proof.
  assert (W : forall st, proper st -> jwf (status_to_json st) = true).
  { intros st P. destruct st as [| | |[s|s|i]]; try reflexivity; cbn [proper] in P; unfold jwf in *; cbn [status_to_json outcome_to_json jtext_ok jsorted keys_sorted forallb fst snd].
    - rewrite P. reflexivity.
    - rewrite P. reflexivity.
    - apply andb_prop in P as [P1 P2]. rewrite P1, P2. reflexivity. }
  intros a b A B E. apply (c66_injective_pf _ _ (W a A) (W b B)) in E.
  destruct a as [| | |[s|s|i]], b as [| | |[s'|s'|i']]; try discriminate; try reflexivity;
    cbn [status_to_json outcome_to_json] in E.
  - assert (X : s = s') by congruence. rewrite X. reflexivity.
  - assert (X : s = s') by congruence. rewrite X. reflexivity.
  - assert (X : i = i') by congruence. rewrite X. reflexivity.
Qed.
Example c93_faithful_ex :
  status_eqb (Complete (OFailure "a")) (Complete (OFailure "b")) = true
  /\ status_to_text (Complete (OFailure "a")) <> status_to_text (Complete (OFailure "b")).
Proof. split; [reflexivity|vm_compute; discriminate]. Qed.
