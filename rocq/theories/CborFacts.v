(** CBOR encoding: shape of heads, reading back, and injectivity. *)
From Coq Require Import Lia.
From Verif Require Import Base BaseFacts Utf8 Sha256 Sha256Facts Cbor SpecIso.

Local Open Scope N_scope.

(* ------------------------------------------------------------ big-endian numbers *)
Definition num (l : list N) : N := fold_left (fun acc b => acc * 256 + b) l 0.
Lemma num_snoc l b : num (l ++ [b]) = num l * 256 + b.
Proof. unfold num. now rewrite fold_left_app. Qed.
Lemma be_bytes_num l : Forall (fun b => b < 256) l -> be_bytes (length l) (num l) = l.
Proof.
  induction l as [|b l IH] using rev_ind; [reflexivity|]. intros H. apply Forall_app in H as [H Hb]. inversion Hb; subst.
  rewrite app_length. cbn [length]. replace (length l + 1)%nat with (S (length l)) by lia. cbn [be_bytes].
  rewrite num_snoc. rewrite N.div_add_l, N.div_small, N.add_0_r, IH by (assumption || lia).
  rewrite N.add_comm, N.mod_add, N.mod_small by lia. reflexivity.
Qed.
Lemma num_be_bytes k : forall n, n < 256 ^ N.of_nat k -> num (be_bytes k n) = n.
Proof.
  induction k as [|k IH]; intros n H; [cbn in *; lia|]. cbn [be_bytes]. rewrite num_snoc, IH.
  - rewrite N.mul_comm. symmetry. apply N.div_mod. lia.
  - rewrite Nnat.Nat2N.inj_succ, N.pow_succ_r' in H. apply N.div_lt_upper_bound; lia.
Qed.
Lemma be_bytes_lt k : forall n, Forall (fun b => b < 256) (be_bytes k n).
Proof.
  induction k; intros n; cbn [be_bytes]; [constructor|]. apply Forall_app. split; [apply IHk|].
  constructor; [|constructor]. apply N.mod_lt. lia.
Qed.
Lemma number_bytes s : number s = num (bytes_of s).
Proof.
  unfold number, num, bytes_of. generalize 0. induction (list_ascii_of_string s); intros x; cbn; [reflexivity|]. apply IHl.
Qed.
Lemma bytes_of_bytes l : Forall (fun b => b < 256) l -> bytes_of (of_bytes l) = l.
Proof.
  unfold bytes_of, of_bytes. rewrite list_ascii_of_string_of_list_ascii, map_map. intros H. rewrite <- (map_id l) at 2.
  apply map_ext_in. intros x Hx. rewrite Forall_forall in H. apply byte_chr. auto.
Qed.
Lemma of_bytes_of s : of_bytes (bytes_of s) = s.
Proof.
  unfold bytes_of, of_bytes. rewrite map_map. rewrite (map_ext _ (fun c => c)); [|apply chr_byte].
  rewrite map_id. apply string_of_list_ascii_of_string.
Qed.
Lemma bytes_of_lt s : Forall (fun b => b < 256) (bytes_of s).
Proof. unfold bytes_of. apply Forall_forall. intros x H. apply in_map_iff in H as (c & <- & _). apply byte_lt. Qed.
Lemma bytes_of_len s : length (bytes_of s) = String.length s.
Proof. unfold bytes_of. rewrite map_length. induction s; cbn; congruence. Qed.
Lemma be_string_number k n : n < 256 ^ N.of_nat k -> number (be_string k n) = n.
Proof. intros H. unfold be_string. rewrite number_bytes, bytes_of_bytes by apply be_bytes_lt. now apply num_be_bytes. Qed.
Lemma be_string_len k n : String.length (be_string k n) = k.
Proof. unfold be_string. rewrite of_bytes_len. apply be_bytes_len. Qed.
Lemma number_be_string s : be_string (String.length s) (number s) = s.
Proof.
  unfold be_string. rewrite number_bytes, <- bytes_of_len, be_bytes_num by apply bytes_of_lt. apply of_bytes_of.
Qed.
Lemma be_val_number s : be_val 0 s = number s.
Proof. unfold number. generalize 0. induction s; intros x; cbn; [reflexivity|]. apply IHs. Qed.

(* ------------------------------------------------------------ heads *)
Lemma head_is m n h : head m n h <-> n < 2 ^ 64 /\ h = cbor_head m n.
Proof.
  unfold cbor_head. rewrite (N.mul_comm m 32). change 256 with (2 ^ 8). change 65536 with (2 ^ 16). change 4294967296 with (2 ^ 32).
  split.
  - intros H. destruct H as [L|s L Hl Hn|s L Hl Hn|s L Hl Hn|s L Hl Hn].
    + split; [lia|]. now rewrite (proj2 (N.ltb_lt _ _)).
    + split; [lia|]. rewrite (proj2 (N.ltb_ge _ _)) by lia. rewrite (proj2 (N.ltb_lt _ _)) by lia.
      rewrite <- Hn, <- Hl, number_be_string. reflexivity.
    + split; [lia|]. rewrite !(proj2 (N.ltb_ge _ _)) by lia. rewrite (proj2 (N.ltb_lt _ _)) by lia.
      rewrite <- Hn, <- Hl, number_be_string. reflexivity.
    + split; [lia|]. rewrite !(proj2 (N.ltb_ge _ _)) by lia. rewrite (proj2 (N.ltb_lt _ _)) by lia.
      rewrite <- Hn, <- Hl, number_be_string. reflexivity.
    + split; [lia|]. rewrite !(proj2 (N.ltb_ge _ _)) by lia.
      rewrite <- Hn, <- Hl, number_be_string. reflexivity.
  - intros [L ->].
    destruct (n <? 24) eqn:E0; [apply N.ltb_lt in E0; now constructor|]. apply N.ltb_ge in E0.
    destruct (n <? 2 ^ 8) eqn:E1; [apply N.ltb_lt in E1; apply head_1; [lia|apply be_string_len|apply be_string_number; lia]|].
    apply N.ltb_ge in E1.
    destruct (n <? 2 ^ 16) eqn:E2; [apply N.ltb_lt in E2; apply head_2; [lia|apply be_string_len|apply be_string_number; lia]|].
    apply N.ltb_ge in E2.
    destruct (n <? 2 ^ 32) eqn:E3; [apply N.ltb_lt in E3; apply head_4; [lia|apply be_string_len|apply be_string_number; lia]|].
    apply N.ltb_ge in E3. apply head_8; [lia|apply be_string_len|apply be_string_number; lia].
Qed.

Lemma take_app a r : take_n (String.length a) (a +:+ r) = Some (a, r).
Proof. induction a; cbn; [reflexivity|]. now rewrite IHa. Qed.
Lemma read_arg_app k s n r : String.length s = k -> number s = n -> read_arg k (s +:+ r) = Some (n, r).
Proof. intros <- <-. unfold read_arg. now rewrite take_app, be_val_number. Qed.

Lemma head_byte m a : m < 8 -> a < 32 -> byte (chr (32 * m + a)) / 32 = m /\ byte (chr (32 * m + a)) mod 32 = a.
Proof.
  intros Hm Ha. rewrite byte_chr by lia. rewrite (N.mul_comm 32 m). split.
  - now rewrite N.div_add_l, N.div_small, N.add_0_r by lia.
  - now rewrite N.add_comm, N.mod_add, N.mod_small by lia.
Qed.
Lemma byte_head c : c = chr (32 * (byte c / 32) + byte c mod 32).
Proof. rewrite <- N.div_mod by lia. symmetry. apply chr_byte. Qed.
Lemma read_head_any m n h r : m < 7 -> any_head m n h -> read_head (h +:+ r) = Some (m, n, r).
Proof.
  intros Hm H. assert (H7 : m =? 7 = false) by (apply N.eqb_neq; lia).
  destruct H as [L|s Hl Hn|s Hl Hn|s Hl Hn|s Hl Hn]; unfold s1; cbn [String.append read_head].
  - destruct (head_byte m n ltac:(lia) ltac:(lia)) as [-> ->]. now rewrite (proj2 (N.ltb_lt _ _)).
  - destruct (head_byte m 24 ltac:(lia) ltac:(lia)) as [-> ->]. cbn -[read_arg]. now rewrite (read_arg_app 1 s n r).
  - destruct (head_byte m 25 ltac:(lia) ltac:(lia)) as [-> ->]. cbn -[read_arg N.eqb]. rewrite H7. cbn -[read_arg]. now rewrite (read_arg_app 2 s n r).
  - destruct (head_byte m 26 ltac:(lia) ltac:(lia)) as [-> ->]. cbn -[read_arg N.eqb]. rewrite H7. cbn -[read_arg]. now rewrite (read_arg_app 4 s n r).
  - destruct (head_byte m 27 ltac:(lia) ltac:(lia)) as [-> ->]. cbn -[read_arg N.eqb]. rewrite H7. cbn -[read_arg]. now rewrite (read_arg_app 8 s n r).
Qed.
Lemma head_any m n h : head m n h -> any_head m n h.
Proof.
  intros [L|s L Hl Hn|s L Hl Hn|s L Hl Hn|s L Hl Hn];
    [now apply any_0|now apply any_1|now apply any_2|now apply any_4|now apply any_8].
Qed.
Lemma read_head_app m n h r : m < 7 -> head m n h -> read_head (h +:+ r) = Some (m, n, r).
Proof. intros Hm H. now apply read_head_any, head_any. Qed.

Lemma take_some n s a b : take_n n s = Some (a, b) -> s = a +:+ b /\ String.length a = n.
Proof.
  revert s a b. induction n as [|n IH]; intros s a b H; cbn [take_n] in H; [injection H as <- <-; now split|].
  destruct s as [|c s]; [discriminate|]. destruct (take_n n s) as [[x y]|] eqn:E; [|discriminate].
  injection H as <- <-. apply IH in E as [-> <-]. now split.
Qed.
Lemma read_arg_some k s n r : read_arg k s = Some (n, r) ->
  exists a, s = a +:+ r /\ String.length a = k /\ number a = n.
Proof.
  unfold read_arg. destruct (take_n k s) as [[a q]|] eqn:E; [|discriminate]. intros H. injection H as <- <-.
  apply take_some in E as [-> L]. exists a. now rewrite be_val_number.
Qed.
(** What a head is read from. *)
Lemma read_head_some s m n r : read_head s = Some (m, n, r) ->
  m < 8 /\ (m < 7 -> exists h, any_head m n h /\ s = h +:+ r)
  /\ (m = 7 -> n < 24 /\ s = String (chr (32 * 7 + n)) r \/ exists c, byte c = n /\ s = String (chr (32 * 7 + 24)) (String c r)).
Proof.
  destruct s as [|c s]; [discriminate|]. cbn [read_head]. cbv zeta.
  assert (Hm : byte c / 32 < 8) by (apply N.div_lt_upper_bound; [lia|apply byte_lt]).
  pose proof (byte_head c) as C. set (x := byte c / 32) in *. set (a := byte c mod 32) in *.
  destruct (a <? 24) eqn:E0; [|destruct (a =? 24) eqn:E1; [|destruct (x =? 7) eqn:E7; [discriminate|
    destruct (a =? 25) eqn:E2; [|destruct (a =? 26) eqn:E3; [|destruct (a =? 27) eqn:E4; [|discriminate]]]]]].
  - apply N.ltb_lt in E0. intros H.
    assert (x = m) as <- by congruence. assert (a = n) as <- by congruence. assert (s = r) as <- by congruence.
    split; [exact Hm|]. split.
    + intros _. exists (s1 c). split; [rewrite C; now constructor|reflexivity].
    + intros E. left. split; [exact E0|]. rewrite C at 1. now rewrite E.
  - apply N.eqb_eq in E1. destruct (read_arg 1 s) as [[k q]|] eqn:R; [|discriminate]. intros H.
    assert (x = m) as <- by congruence. assert (k = n) as <- by congruence. assert (q = r) as <- by congruence.
    apply read_arg_some in R as (b & -> & L & Nb). split; [exact Hm|]. split.
    + intros _. exists (String c b). split; [rewrite C, E1; now constructor|reflexivity].
    + intros E. right. destruct b as [|d [|e b]]; try discriminate. exists d. split; [exact Nb|].
      rewrite C at 1. rewrite E, E1. reflexivity.
  - apply N.eqb_eq in E2. destruct (read_arg 2 s) as [[k q]|] eqn:R; [|discriminate]. intros H.
    assert (x = m) as <- by congruence. assert (k = n) as <- by congruence. assert (q = r) as <- by congruence.
    apply read_arg_some in R as (b & -> & L & Nb). apply N.eqb_neq in E7. split; [exact Hm|]. split; [|lia].
    intros _. exists (String c b). split; [rewrite C, E2; now constructor|reflexivity].
  - apply N.eqb_eq in E3. destruct (read_arg 4 s) as [[k q]|] eqn:R; [|discriminate]. intros H.
    assert (x = m) as <- by congruence. assert (k = n) as <- by congruence. assert (q = r) as <- by congruence.
    apply read_arg_some in R as (b & -> & L & Nb). apply N.eqb_neq in E7. split; [exact Hm|]. split; [|lia].
    intros _. exists (String c b). split; [rewrite C, E3; now constructor|reflexivity].
  - apply N.eqb_eq in E4. destruct (read_arg 8 s) as [[k q]|] eqn:R; [|discriminate]. intros H.
    assert (x = m) as <- by congruence. assert (k = n) as <- by congruence. assert (q = r) as <- by congruence.
    apply read_arg_some in R as (b & -> & L & Nb). apply N.eqb_neq in E7. split; [exact Hm|]. split; [|lia].
    intros _. exists (String c b). split; [rewrite C, E4; now constructor|reflexivity].
Qed.
Lemma read_body_some n s b r : read_body n s = Some (b, r) <-> s = b +:+ r /\ len b = n.
Proof.
  unfold read_body, slen, len. split.
  - destruct (N.of_nat (String.length s) <? n) eqn:E; [discriminate|]. intros H. apply take_some in H as [-> L].
    split; [reflexivity|]. rewrite L. apply Nnat.N2Nat.id.
  - intros [-> <-]. rewrite slen_app. rewrite (proj2 (N.ltb_ge _ _)) by lia. rewrite Nnat.Nat2N.id. apply take_app.
Qed.

Lemma read_body_app b r : read_body (len b) (b +:+ r) = Some (b, r).
Proof.
  unfold read_body, slen, len. rewrite slen_app. rewrite (proj2 (N.ltb_ge _ _)) by lia.
  rewrite Nnat.Nat2N.id. apply take_app.
Qed.

(* ------------------------------------------------------------ encodings *)
Scheme encodes_ind2 := Induction for encodes Sort Prop
  with encodes_all_ind2 := Induction for encodes_all Sort Prop.
Combined Scheme encodes_mutind from encodes_ind2, encodes_all_ind2.

Lemma encodes_fun : (forall v s, encodes v s -> s = cbor_encode v)
  /\ (forall l s, encodes_all l s -> s = sconcat (map cbor_encode l)).
Proof.
  apply encodes_mutind; intros; cbn [cbor_encode map sconcat]; try reflexivity.
  - apply head_is in h0 as [_ ->]. reflexivity.
  - apply head_is in h0 as [_ ->]. reflexivity.
  - apply head_is in h0 as [_ ->]. now subst.
  - now subst.
Qed.

(** Lengths that fit. *)
Fixpoint sized (v : cbor) : Prop :=
  match v with
  | CNull => True
  | CBytes b => short b
  | CText t => short t
  | CArr l => N.of_nat (length l) < 2 ^ 64 /\ fold_right (fun x P => sized x /\ P) True l
  end.
Section CborInd.
  Variable P : cbor -> Prop.
  Hypothesis Hnull : P CNull.
  Hypothesis Hbytes : forall b, P (CBytes b).
  Hypothesis Htext : forall t, P (CText t).
  Hypothesis Harr : forall l, Forall P l -> P (CArr l).
  Fixpoint cbor_ind2 (v : cbor) : P v :=
    match v with
    | CNull => Hnull
    | CBytes b => Hbytes b
    | CText t => Htext t
    | CArr l => Harr l ((fix go l : Forall P l :=
        match l with [] => Forall_nil P | x :: r => Forall_cons x (cbor_ind2 x) (go r) end) l)
    end.
End CborInd.

Lemma encodes_encode v : sized v -> encodes v (cbor_encode v).
Proof.
  induction v as [|b|t|l IH] using cbor_ind2; cbn [sized cbor_encode]; intros S.
  - constructor.
  - constructor. apply head_is. split; [exact S|reflexivity].
  - constructor. apply head_is. split; [exact S|reflexivity].
  - destruct S as [S1 S2]. constructor; [apply head_is; now split|]. clear S1.
    induction IH as [|x l Hx IHl IH']; cbn [map sconcat fold_right] in *; constructor; [apply Hx, S2|apply IH', S2].
Qed.
Lemma encodes_sized : (forall v s, encodes v s -> sized v)
  /\ (forall l s, encodes_all l s -> fold_right (fun x P => sized x /\ P) True l).
Proof.
  apply encodes_mutind; intros; cbn [sized fold_right]; try exact I.
  - now apply head_is in h0 as [H _].
  - now apply head_is in h0 as [H _].
  - apply head_is in h0 as [H' _]. now split.
  - now split.
Qed.
Lemma encodes_iff v s : encodes v s <-> sized v /\ s = cbor_encode v.
Proof.
  split.
  - intros H. split; [now apply (proj1 encodes_sized _ s)|now apply (proj1 encodes_fun)].
  - intros [S ->]. now apply encodes_encode.
Qed.

(** The head of an item. *)
Definition item_head (v : cbor) : N * N :=
  match v with
  | CNull => (7, 22) | CBytes b => (2, len b) | CText t => (3, len t) | CArr l => (4, N.of_nat (length l))
  end.
Definition item_body (v : cbor) : string :=
  match v with CNull => EmptyString | CBytes b => b | CText t => t | CArr l => sconcat (map cbor_encode l) end.
Lemma read_item v r : sized v ->
  read_head (cbor_encode v +:+ r) = Some (item_head v, item_body v +:+ r).
Proof.
  destruct v as [|b|t|l]; cbn [sized cbor_encode item_head item_body]; intros S.
  - reflexivity.
  - rewrite sapp_assoc. apply read_head_app; [lia|]. apply head_is. now split.
  - rewrite sapp_assoc. apply read_head_app; [lia|]. apply head_is. now split.
  - rewrite sapp_assoc. apply read_head_app; [lia|]. apply head_is. now split.
Qed.

(** No encoding is a proper prefix of another. *)
Lemma encode_inj v : forall w r q, sized v -> sized w ->
  cbor_encode v +:+ r = cbor_encode w +:+ q -> v = w /\ r = q.
Proof.
  induction v as [|b|t|l IH] using cbor_ind2; intros w r q S S' H;
    pose proof (read_item _ r S) as R; pose proof (read_item _ q S') as R'; rewrite H, R' in R;
    destruct w as [|b'|t'|l']; cbn [item_head item_body] in R; try discriminate.
  - injection R as R. now split.
  - assert (X : len b' = len b) by congruence. assert (Y : b' +:+ q = b +:+ r) by congruence.
    apply sapp_inv_len in Y; [|unfold len in X; lia]. now destruct Y as [-> ->].
  - assert (X : len t' = len t) by congruence. assert (Y : t' +:+ q = t +:+ r) by congruence.
    apply sapp_inv_len in Y; [|unfold len in X; lia]. now destruct Y as [-> ->].
  - assert (X : length l' = length l) by (apply Nnat.Nat2N.inj; congruence).
    assert (Y : sconcat (map cbor_encode l') +:+ q = sconcat (map cbor_encode l) +:+ r) by congruence.
    clear R R' H. destruct S as [_ S], S' as [_ S'].
    assert (G : l = l' /\ r = q); [|now destruct G as [-> ->]].
    revert l' X Y S'. induction IH as [|x l Hx _ IHl]; intros [|y l'] X Y S'; try discriminate X.
    + now split.
    + cbn [map sconcat fold_right] in *. rewrite !sapp_assoc in Y. symmetry in Y. destruct (Hx y _ _ (proj1 S) (proj1 S') Y) as [-> Z].
      destruct (IHl (proj2 S) l') as [-> ->]; [now injection X|now symmetry|apply S'|]. now split.
Qed.
Lemma encode_inj0 v w : sized v -> sized w -> cbor_encode v = cbor_encode w -> v = w.
Proof.
  intros S S' H. apply (encode_inj v w EmptyString EmptyString S S'). now rewrite !sapp_nil_r.
Qed.

(* ------------------------------------------------------------ decoding *)
Fixpoint cdepth (v : cbor) : nat :=
  match v with CArr l => S (fold_right (fun x n => Nat.max (cdepth x) n) O l) | _ => O end.
Lemma encode_pos v : (1 <= String.length (cbor_encode v))%nat.
Proof.
  assert (H : forall m n, (1 <= String.length (cbor_head m n))%nat).
  { intros m n. unfold cbor_head. destruct (_ <? 24); [cbn; lia|]. destruct (_ <? 256); [cbn; lia|].
    destruct (_ <? 65536); [cbn; lia|]. destruct (_ <? 4294967296); cbn; lia. }
  destruct v; cbn [cbor_encode]; try rewrite slen_app; try (match goal with |- context [cbor_head ?m ?n] => pose proof (H m n) end; lia).
  reflexivity.
Qed.
Lemma sconcat_len l x : In x l -> (String.length x <= String.length (sconcat l))%nat.
Proof. induction l as [|y l IH]; cbn [In sconcat]; [contradiction|]. rewrite slen_app. intros [->|H]; [lia|]. specialize (IH H). lia. Qed.
Lemma cdepth_len v : (cdepth v <= String.length (cbor_encode v))%nat.
Proof.
  induction v as [|b|t|l IH] using cbor_ind2; try (cbn [cdepth]; lia).
  cbn [cdepth cbor_encode]. rewrite slen_app.
  assert (H1 : (1 <= String.length (cbor_head 4 (N.of_nat (length l))))%nat).
  { pose proof (encode_pos (CArr [])) as E. unfold cbor_head. destruct (_ <? 24); [cbn; lia|]. destruct (_ <? 256); [cbn; lia|].
    destruct (_ <? 65536); [cbn; lia|]. destruct (_ <? 4294967296); cbn; lia. }
  assert (H2 : (fold_right (fun x n => Nat.max (cdepth x) n) O l <= String.length (sconcat (map cbor_encode l)))%nat).
  { clear H1. induction IH as [|x l Hx _ IHl]; cbn [fold_right map sconcat]; [lia|]. rewrite slen_app. lia. }
  lia.
Qed.
Lemma sconcat_count l : (length l <= String.length (sconcat (map cbor_encode l)))%nat.
Proof. induction l as [|x l IH]; cbn [length map sconcat]; [lia|]. rewrite slen_app. pose proof (encode_pos x). lia. Qed.

Lemma parse_encode v : forall f r, sized v -> text_items v -> (cdepth v < f)%nat ->
  cbor_parse f (cbor_encode v +:+ r) = Some (v, r).
Proof.
  induction v as [|b|t|l IH] using cbor_ind2; intros [|f] r S T D; try lia; cbn [cbor_parse]; rewrite (read_item _ r S);
    cbn [item_head item_body String.append].
  - reflexivity.
  - change (2 =? 2) with true. cbv iota. now rewrite read_body_app.
  - change (3 =? 2) with false. change (3 =? 3) with true. cbv iota. rewrite read_body_app. cbn [text_items] in T. now rewrite T.
  - change (4 =? 2) with false. change (4 =? 3) with false. change (4 =? 4) with true. cbv iota.
    unfold slen. rewrite slen_app. pose proof (sconcat_count l) as C. rewrite (proj2 (N.ltb_ge _ _)) by lia.
    rewrite Nnat.Nat2N.id.
    match goal with |- context [?g (length l) (sconcat (map cbor_encode l) +:+ r)] => set (items := g) end.
    assert (G : items (length l) (sconcat (map cbor_encode l) +:+ r) = Some (l, r)); [|now rewrite G].
    cbn [sized] in S. destruct S as [_ S]. cbn [text_items] in T. cbn [cdepth] in D. clear C.
    induction IH as [|x l Hx _ IHl]; [reflexivity|]. cbn [length map sconcat fold_right] in *.
    rewrite sapp_assoc. unfold items at 1. fold items.
    rewrite (Hx f _ (proj1 S) (proj1 T)) by lia.
    rewrite IHl; [reflexivity|apply S|apply T|lia].
Qed.
Lemma decode_encode v : sized v -> text_items v -> cbor_decode (cbor_encode v) = Some v.
Proof.
  intros S T. unfold cbor_decode. rewrite <- (sapp_nil_r (cbor_encode v)) at 2.
  rewrite parse_encode; [reflexivity|assumption|assumption|]. pose proof (cdepth_len v). lia.
Qed.
