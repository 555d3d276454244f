(** Lemmas about [UrlEncoded]. *)
From Verif Require Import Base BaseFacts Base64Facts Utf8 Utf8Facts UrlEncoded.
From Coq Require Import Lia.

(** Characters of an encoded component. *)
Definition enc_char_ok (c : ascii) : bool := form_safe c || Ascii.eqb c "+" || Ascii.eqb c "%".

Lemma form_enc_char_ok c : str_all enc_char_ok (form_enc_char c) = true.
Proof.
  assert (forallb (fun c => str_all enc_char_ok (form_enc_char c)) all_ascii = true) as A by (vm_compute; reflexivity).
  rewrite forallb_forall in A. apply A, all_ascii_in.
Qed.

Lemma form_enc_ok s : str_all enc_char_ok (form_enc s) = true.
Proof.
  induction s as [|c s IH]; cbn [form_enc]; [reflexivity|].
  rewrite str_all_app, form_enc_char_ok. exact IH.
Qed.

Lemma form_enc_no c s : enc_char_ok c = false -> has_char c (form_enc s) = false.
Proof. intros H. eapply has_char_all; [exact H|apply form_enc_ok]. Qed.

Lemma form_dec_enc_char c t :
  form_dec_bytes (form_enc_char c +:+ t) = String c (form_dec_bytes t).
Proof.
  destruct c as [b0 b1 b2 b3 b4 b5 b6 b7];
  destruct b0, b1, b2, b3, b4, b5, b6, b7; reflexivity.
Qed.

Lemma form_dec_enc_bytes s : form_dec_bytes (form_enc s) = s.
Proof.
  induction s as [|c s IH]; cbn [form_enc]; [reflexivity|].
  rewrite form_dec_enc_char, IH. reflexivity.
Qed.

Lemma form_dec_enc s : utf8_valid s = true -> form_dec (form_enc s) = s.
Proof. intros H. unfold form_dec. rewrite form_dec_enc_bytes. apply utf8_lossy_valid, H. Qed.

Lemma form_enc_inj a b : form_enc a = form_enc b -> a = b.
Proof. intros H. apply (f_equal form_dec_bytes) in H. rewrite !form_dec_enc_bytes in H. exact H. Qed.

(* ------------------------------------------------------------ splitting and joining *)
Lemma split_all_nochar c s : has_char c s = false -> split_all c s = [s].
Proof.
  induction s as [|d s IH]; cbn; [reflexivity|]. rewrite orb_false_iff. intros [Hc Hs].
  rewrite Hc, (IH Hs). reflexivity.
Qed.

Lemma split_all_cons c s t : has_char c s = false ->
  split_all c (s +:+ String c t) = s :: split_all c t.
Proof.
  induction s as [|d s IH]; cbn.
  - rewrite Ascii.eqb_refl. reflexivity.
  - rewrite orb_false_iff. intros [Hc Hs]. rewrite Hc, (IH Hs). reflexivity.
Qed.

Lemma split_join l : Forall (fun s => has_char "&" s = false) l -> l <> [] ->
  split_all "&" (join "&" l) = l.
Proof.
  induction l as [|x l IH]; intros HF Hne; [contradiction|].
  inversion HF; subst. destruct l as [|y l].
  - cbn. apply split_all_nochar; assumption.
  - change (join "&" (x :: y :: l)) with (x +:+ String "&" (join "&" (y :: l))).
    rewrite split_all_cons by assumption. f_equal. apply IH; [assumption|discriminate].
Qed.

Definition pair_text (kv : string * string) : string := form_enc (fst kv) +:+ String "=" (form_enc (snd kv)).

Lemma pair_text_no_amp kv : has_char "&" (pair_text kv) = false.
Proof.
  unfold pair_text. rewrite has_char_app. cbn [has_char].
  rewrite !form_enc_no by reflexivity. reflexivity.
Qed.

Lemma form_pair_text k v : utf8_valid k = true -> utf8_valid v = true ->
  form_pair (pair_text (k, v)) = (k, v).
Proof.
  intros Hk Hv. unfold form_pair, pair_text. cbn [fst snd].
  rewrite (proj2 (split_once_some "=" _ (form_enc k) (form_enc v))).
  - rewrite !form_dec_enc by assumption. reflexivity.
  - split; [reflexivity|]. apply form_enc_no. reflexivity.
Qed.

Lemma pair_text_nonempty kv : String.eqb (pair_text kv) EmptyString = false.
Proof. unfold pair_text. destruct (form_enc (fst kv)); reflexivity. Qed.

(** Serialising pairs and parsing the text gives exactly those pairs, in order. *)
Lemma form_parse_serialize l :
  Forall (fun kv => utf8_valid (fst kv) = true /\ utf8_valid (snd kv) = true) l ->
  form_parse (form_serialize l) = l.
Proof.
  intros H. unfold form_parse, form_serialize.
  change (fun kv : string * string => form_enc (fst kv) +:+ String "=" (form_enc (snd kv))) with pair_text.
  destruct l as [|x l]; [reflexivity|].
  rewrite split_join.
  - remember (x :: l) as l'. clear Heql' x l.
    induction H as [|[k v] l [Hk Hv] HF IH]; [reflexivity|].
    cbn [map filter]. rewrite pair_text_nonempty. cbn [negb map].
    rewrite form_pair_text by assumption. f_equal. exact IH.
  - apply Forall_forall. intros s Hs. apply in_map_iff in Hs as (kv & <- & _). apply pair_text_no_amp.
  - discriminate.
Qed.

Lemma form_serialize_inj l l' :
  form_serialize l = form_serialize l' -> (l = [] <-> l' = []) -> l = l'.
Proof.
  unfold form_serialize.
  change (fun kv : string * string => form_enc (fst kv) +:+ String "=" (form_enc (snd kv))) with pair_text.
  intros H Hnil.
  destruct l as [|x l]; [destruct l' as [|y l']; [reflexivity|]|].
  { exfalso. assert (y :: l' = []) by tauto. discriminate. }
  destruct l' as [|y l']. { exfalso. assert (x :: l = []) by tauto. discriminate. }
  apply (f_equal (split_all "&")) in H.
  rewrite !split_join in H;
    try (apply Forall_forall; intros s Hs; apply in_map_iff in Hs as (kv & <- & _); apply pair_text_no_amp);
    try discriminate.
  assert (Hinj : forall a b, pair_text a = pair_text b -> a = b).
  { intros [k v] [k2 v2] E. unfold pair_text in E; cbn [fst snd] in E.
    assert (E1 : split_once "=" (form_enc k +:+ String "=" (form_enc v)) = Some (form_enc k, form_enc v)).
    { apply split_once_some. split; [reflexivity|]. apply form_enc_no. reflexivity. }
    assert (E2 : split_once "=" (form_enc k2 +:+ String "=" (form_enc v2)) = Some (form_enc k2, form_enc v2)).
    { apply split_once_some. split; [reflexivity|]. apply form_enc_no. reflexivity. }
    rewrite E in E1. rewrite E1 in E2. inversion E2.
    f_equal; apply form_enc_inj; congruence. }
  revert H. generalize (y :: l'). generalize (x :: l). clear - Hinj.
  induction l as [|x l IH]; intros [|y l']; cbn; intros H; try discriminate; [reflexivity|].
  inversion H. f_equal; auto.
Qed.
