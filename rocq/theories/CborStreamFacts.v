(** Reading CBOR as a stream of headers: what each reader accepts. *)
From Coq Require Import Lia.
From Verif Require Import Base BaseFacts Utf8 Sha256 Sha256Facts Cbor SpecIso CborFacts Iso.

Local Open Scope N_scope.

(* ------------------------------------------------------------ headers *)
Lemma pull_any m n h r : m < 7 -> any_head m n h ->
  pull (h +:+ r) = match header_of m (Some n) with Some x => Some (x, r) | None => None end.
Proof.
  intros Hm H. assert (H7 : m =? 7 = false) by (apply N.eqb_neq; lia).
  destruct H as [L|s Hl Hn|s Hl Hn|s Hl Hn|s Hl Hn]; unfold s1; cbn [String.append pull].
  - destruct (head_byte m n ltac:(lia) ltac:(lia)) as [-> ->]. now rewrite (proj2 (N.ltb_lt _ _)), H7.
  - destruct (head_byte m 24 ltac:(lia) ltac:(lia)) as [-> ->]. cbn -[read_arg N.eqb header_of]. now rewrite (read_arg_app 1 s n r), H7.
  - destruct (head_byte m 25 ltac:(lia) ltac:(lia)) as [-> ->]. cbn -[read_arg N.eqb header_of]. change (25 =? 24) with false. change (25 =? 25) with true. cbv iota. now rewrite (read_arg_app 2 s n r), H7.
  - destruct (head_byte m 26 ltac:(lia) ltac:(lia)) as [-> ->]. cbn -[read_arg N.eqb header_of]. change (26 =? 24) with false. change (26 =? 25) with false. change (26 =? 26) with true. cbv iota. now rewrite (read_arg_app 4 s n r), H7.
  - destruct (head_byte m 27 ltac:(lia) ltac:(lia)) as [-> ->]. cbn -[read_arg N.eqb header_of]. change (27 =? 24) with false. change (27 =? 25) with false. change (27 =? 26) with false. change (27 =? 27) with true. cbv iota. now rewrite (read_arg_app 8 s n r), H7.
Qed.
Lemma pull_break r : pull (break +:+ r) = Some (HBreak, r).
Proof. reflexivity. Qed.
Lemma pull_open_bytes r : pull (indefinite 2 +:+ r) = Some (HBytes None, r).
Proof. reflexivity. Qed.
Lemma pull_open_text r : pull (indefinite 3 +:+ r) = Some (HText None, r).
Proof. reflexivity. Qed.
Lemma pull_open_array r : pull (indefinite 4 +:+ r) = Some (HArray None, r).
Proof. reflexivity. Qed.

(** What a header is read from. *)
Definition header_text (h : header) (s r : string) : Prop :=
  match h with
  | HPositive n => exists x, any_head 0 n x /\ s = x +:+ r
  | HNegative n => exists x, any_head 1 n x /\ s = x +:+ r
  | HBytes (Some n) => exists x, any_head 2 n x /\ s = x +:+ r
  | HBytes None => s = indefinite 2 +:+ r
  | HText (Some n) => exists x, any_head 3 n x /\ s = x +:+ r
  | HText None => s = indefinite 3 +:+ r
  | HArray (Some n) => exists x, any_head 4 n x /\ s = x +:+ r
  | HArray None => s = indefinite 4 +:+ r
  | HMap _ => True
  | HTag n => exists x, any_head 6 n x /\ s = x +:+ r
  | HSimple n => (n < 24 /\ s = String (chr (32 * 7 + n)) r) \/ exists c, byte c = n /\ s = String (chr (32 * 7 + 24)) (String c r)
  | HFloat => True
  | HBreak => s = break +:+ r
  end.
Lemma header_of_text m n s r h x : m < 7 -> any_head m n x -> s = x +:+ r -> header_of m (Some n) = Some h -> header_text h s r.
Proof.
  intros Hm A -> H. unfold header_of in H.
  destruct (m =? 2) eqn:E2; [apply N.eqb_eq in E2 as ->; injection H as <-; now exists x|].
  destruct (m =? 3) eqn:E3; [apply N.eqb_eq in E3 as ->; injection H as <-; now exists x|].
  destruct (m =? 4) eqn:E4; [apply N.eqb_eq in E4 as ->; injection H as <-; now exists x|].
  destruct (m =? 5) eqn:E5; [apply N.eqb_eq in E5 as ->; injection H as <-; exact I|].
  destruct (m =? 0) eqn:E0; [apply N.eqb_eq in E0 as ->; injection H as <-; now exists x|].
  destruct (m =? 1) eqn:E1; [apply N.eqb_eq in E1 as ->; injection H as <-; now exists x|].
  apply N.eqb_neq in E2, E3, E4, E5, E0, E1. injection H as <-. assert (m = 6) as -> by lia. now exists x.
Qed.
Lemma pull_some s h r : pull s = Some (h, r) -> header_text h s r /\ (String.length r < String.length s)%nat.
Proof.
  destruct s as [|c s]; [discriminate|]. cbn [pull]. cbv zeta.
  assert (Hm : byte c / 32 < 8) by (apply N.div_lt_upper_bound; [lia|apply byte_lt]).
  pose proof (byte_head c) as C. set (x := byte c / 32) in *. set (a := byte c mod 32) in *.
  assert (F : forall k n q hh, read_arg k s = Some (n, q) -> x < 7 -> header_of x (Some n) = Some hh ->
            (forall b, String.length b = k -> number b = n -> any_head x n (String c b)) ->
            header_text hh (String c s) q /\ (String.length q < String.length (String c s))%nat).
  { intros k n q hh R X Hh B. apply read_arg_some in R as (b & -> & L & Nb). split.
    - refine (header_of_text x n _ _ _ (String c b) X (B b L Nb) eq_refl Hh).
    - cbn [String.length]. rewrite slen_app. lia. }
  assert (FL : forall k n q, read_arg k s = Some (n, q) -> (String.length q < String.length (String c s))%nat).
  { intros k n q R. apply read_arg_some in R as (b & -> & L & Nb). cbn [String.length]. rewrite slen_app. lia. }
  destruct (a <? 24) eqn:E0; [|destruct (a =? 24) eqn:E1; [|destruct (a =? 25) eqn:E2; [|destruct (a =? 26) eqn:E3; [|
    destruct (a =? 27) eqn:E4; [|destruct (a =? 31) eqn:E5; [|discriminate]]]]]].
  - apply N.ltb_lt in E0. destruct (x =? 7) eqn:E7.
    + apply N.eqb_eq in E7. assert (L : a <? 25 = true) by (apply N.ltb_lt; lia). rewrite L. intros H. injection H as <- <-.
      split; [|cbn; lia]. left. split; [exact E0|]. rewrite C at 1. now rewrite E7.
    + apply N.eqb_neq in E7. destruct (header_of x (Some a)) as [hh|] eqn:Hh; [|discriminate]. intros H. injection H as <- <-.
      split; [|cbn; lia]. refine (header_of_text x a _ _ _ (s1 c) ltac:(lia) _ eq_refl Hh). rewrite C. now constructor.
  - apply N.eqb_eq in E1. destruct (read_arg 1 s) as [[k q]|] eqn:R; [|discriminate]. destruct (x =? 7) eqn:E7.
    + apply N.eqb_eq in E7. assert (L : a <? 25 = true) by (apply N.ltb_lt; lia). rewrite L. intros H. injection H as <- <-.
      split; [|exact (FL _ _ _ R)]. right. apply read_arg_some in R as (b & -> & Lb & Nb).
      destruct b as [|d [|e b]]; try discriminate. exists d. split; [exact Nb|]. rewrite C at 1. rewrite E7, E1. reflexivity.
    + apply N.eqb_neq in E7. destruct (header_of x (Some k)) as [hh|] eqn:Hh; [|discriminate]. intros H. injection H as <- <-.
      apply (F _ _ _ _ R ltac:(lia) Hh). intros b Lb Nb. rewrite C, E1. now constructor.
  - apply N.eqb_eq in E2. destruct (read_arg 2 s) as [[k q]|] eqn:R; [|discriminate]. destruct (x =? 7) eqn:E7.
    + rewrite E0 || idtac. assert (L : a <? 25 = false) by (apply N.ltb_ge; lia). rewrite L. intros H. injection H as <- <-.
      split; [exact I|exact (FL _ _ _ R)].
    + apply N.eqb_neq in E7. destruct (header_of x (Some k)) as [hh|] eqn:Hh; [|discriminate]. intros H. injection H as <- <-.
      apply (F _ _ _ _ R ltac:(lia) Hh). intros b Lb Nb. rewrite C, E2. now constructor.
  - apply N.eqb_eq in E3. destruct (read_arg 4 s) as [[k q]|] eqn:R; [|discriminate]. destruct (x =? 7) eqn:E7.
    + assert (L : a <? 25 = false) by (apply N.ltb_ge; lia). rewrite L. intros H. injection H as <- <-.
      split; [exact I|exact (FL _ _ _ R)].
    + apply N.eqb_neq in E7. destruct (header_of x (Some k)) as [hh|] eqn:Hh; [|discriminate]. intros H. injection H as <- <-.
      apply (F _ _ _ _ R ltac:(lia) Hh). intros b Lb Nb. rewrite C, E3. now constructor.
  - apply N.eqb_eq in E4. destruct (read_arg 8 s) as [[k q]|] eqn:R; [|discriminate]. destruct (x =? 7) eqn:E7.
    + assert (L : a <? 25 = false) by (apply N.ltb_ge; lia). rewrite L. intros H. injection H as <- <-.
      split; [exact I|exact (FL _ _ _ R)].
    + apply N.eqb_neq in E7. destruct (header_of x (Some k)) as [hh|] eqn:Hh; [|discriminate]. intros H. injection H as <- <-.
      apply (F _ _ _ _ R ltac:(lia) Hh). intros b Lb Nb. rewrite C, E4. now constructor.
  - apply N.eqb_eq in E5. clearbody x a. rewrite E5 in C. destruct (x =? 7) eqn:E7.
    + apply N.eqb_eq in E7. intros H. injection H as <- <-. split; [|cbn; lia]. rewrite C, E7. reflexivity.
    + apply N.eqb_neq in E7. unfold header_of.
      destruct (x =? 2) eqn:X2; [apply N.eqb_eq in X2; intros H; injection H as <- <-; split; [rewrite C, X2; reflexivity|cbn; lia]|].
      destruct (x =? 3) eqn:X3; [apply N.eqb_eq in X3; intros H; injection H as <- <-; split; [rewrite C, X3; reflexivity|cbn; lia]|].
      destruct (x =? 4) eqn:X4; [apply N.eqb_eq in X4; intros H; injection H as <- <-; split; [rewrite C, X4; reflexivity|cbn; lia]|].
      destruct (x =? 5) eqn:X5; [intros H; injection H as <- <-; split; [exact I|cbn; lia]|]. discriminate.
Qed.

(* ------------------------------------------------------------ tags *)
Definition untagged (h : header) : Prop := match h with HTag _ => False | _ => True end.
Lemma skip_some f s h r : skip_tags f s = Some (h, r) ->
  untagged h /\ exists t q, tags any_tag t /\ s = t +:+ q /\ pull q = Some (h, r).
Proof.
  revert s. induction f as [|f IH]; intros s; cbn [skip_tags]; [discriminate|].
  destruct (pull s) as [[x q]|] eqn:P; [|discriminate]. destruct x as [?|?|?|?|?|?|n|?| |];
    try (intros H; injection H as <- <-; split; [exact I|]; exists EmptyString, s; split; [constructor|split; [reflexivity|exact P]]).
  intros H. destruct (IH _ H) as (U & t & z & T & -> & Q). split; [exact U|].
  apply pull_some in P as [(x & A & ->) _]. exists (x +:+ t), z. split; [now apply (tags_more any_tag n)|]. split; [now rewrite sapp_assoc|exact Q].
Qed.
Lemma tags_app s h r P t : tags P t -> pull s = Some (h, r) -> untagged h -> forall f, (String.length (t +:+ s) < f)%nat ->
  skip_tags f (t +:+ s) = Some (h, r).
Proof.
  intros T Q U. induction T as [|n x z A _ T IH]; intros f L; (destruct f as [|f]; [lia|]); cbn [skip_tags].
  - cbn [String.append]. rewrite Q. destruct h; try reflexivity. destruct U.
  - rewrite sapp_assoc, (pull_any 6 n x _ eq_refl A). cbn [header_of N.eqb Pos.eqb]. apply IH.
    rewrite sapp_assoc, slen_app in L. assert (1 <= String.length x)%nat by (destruct A; cbn; lia). lia.
Qed.
Lemma next_header_iff s h r : next_header s = Some (h, r) <->
  untagged h /\ exists t q, tags any_tag t /\ s = t +:+ q /\ pull q = Some (h, r).
Proof.
  unfold next_header. split; [apply skip_some|]. intros (U & t & q & T & -> & P). apply (tags_app q h r any_tag t T P U). lia.
Qed.

(* ------------------------------------------------------------ strings *)
Definition major (text : bool) : N := if text then 3 else 2.
Definition good (text : bool) (t : string) : Prop := negb text || utf8_valid t = true.
Definition string_header (text : bool) (n : option N) : header := if text then HText n else HBytes n.
Section Strings.
Variable text : bool.
Local Notation m := (major text).
Local Notation P := (good text).
Local Notation hd := (string_header text).

Lemma pull_piece n h r : any_head m n h -> pull (h +:+ r) = Some (hd (Some n), r).
Proof. destruct text; intros A; [exact (pull_any 3 n h r eq_refl A)|exact (pull_any 2 n h r eq_refl A)]. Qed.
Lemma pull_opened r : pull (indefinite m +:+ r) = Some (hd None, r).
Proof. destruct text; reflexivity. Qed.
Lemma hd_text n s r : header_text (hd n) s r ->
  match n with Some n => exists x, any_head m n x /\ s = x +:+ r | None => s = indefinite m +:+ r end.
Proof. destruct text, n; exact (fun x => x). Qed.

Definition kind (h : header) : option (option N) :=
  if text then match h with HText n => Some n | _ => None end else match h with HBytes n => Some n | _ => None end.
Lemma other_step {A} (h : header) (x y : A) : h <> HBreak -> match h with HBreak => x | _ => y end = y.
Proof. intros B. destruct h; try reflexivity. now destruct B. Qed.
(** One step of [read_segments]. *)
Lemma segments_step f d s :
  read_segments text (S f) d s =
  match pull s with
  | None => None
  | Some (h, r) =>
      match h with
      | HBreak => match d with O => Some (EmptyString, r) | S d => read_segments text f d r end
      | _ => match kind h with
             | None => None
             | Some None => read_segments text f (S d) r
             | Some (Some n) =>
                 match read_body n r with
                 | Some (t, q) => if negb text || utf8_valid t then
                     match read_segments text f d q with Some (u, z) => Some (t +:+ u, z) | None => None end
                   else None
                 | None => None
                 end
             end
      end
  end.
Proof. cbn [read_segments]. destruct (pull s) as [[[] r]|]; reflexivity. Qed.
Lemma kind_of n : kind (hd n) = Some n.
Proof. unfold kind, string_header. destruct text; reflexivity. Qed.
Lemma hd_other n : hd n <> HBreak.
Proof. unfold string_header. destruct text; discriminate. Qed.
Lemma kind_hd h n : kind h = Some n -> h = hd n.
Proof. unfold kind, string_header. destruct text, h; intros H; try discriminate; now injection H as ->. Qed.

Lemma segments_more f : forall d s x f', read_segments text f d s = Some x -> (String.length s < f')%nat ->
  read_segments text f' d s = Some x.
Proof.
  induction f as [|f IH]; intros d s x f' H L; [discriminate|]. destruct f' as [|f']; [lia|].
  rewrite segments_step in *. destruct (pull s) as [[h r]|] eqn:E; [|discriminate]. apply pull_some in E as [_ Lr].
  assert (K : forall d q x, read_segments text f d q = Some x -> (String.length q <= String.length r)%nat -> read_segments text f' d q = Some x)
    by (intros; apply IH; [assumption|lia]).
  assert (B : h = HBreak \/ h <> HBreak) by (destruct h; auto; right; discriminate). destruct B as [->|B].
  - destruct d; [exact H|apply K; [exact H|lia]].
  - rewrite (other_step h _ _ B). rewrite (other_step h _ _ B) in H. destruct (kind h) as [[n|]|]; [|apply K; [exact H|lia]|discriminate].
    destruct (read_body n r) as [[t q]|] eqn:RB; [|discriminate]. destruct (negb text || utf8_valid t); [|discriminate].
    apply read_body_some in RB as [RB _]. destruct (read_segments text f d q) as [[u z]|] eqn:R; [|discriminate].
    rewrite (K d q (u, z) R) by (rewrite RB, slen_app; lia). exact H.
Qed.

Definition run (d : nat) (s t r : string) : Prop := exists f, read_segments text f d s = Some (t, r).
Lemma run_break r : run 0 (break +:+ r) EmptyString r.
Proof. exists 1%nat. reflexivity. Qed.
Lemma run_inner d r t q : run d r t q -> run (S d) (break +:+ r) t q.
Proof. intros (f & F). exists (S f). rewrite segments_step, pull_break. exact F. Qed.
Lemma run_open d r t q : run (S d) r t q -> run d (indefinite m +:+ r) t q.
Proof.
  intros (f & F). exists (S f). rewrite segments_step, pull_opened, (other_step _ _ _ (hd_other None)), kind_of. exact F.
Qed.
Lemma run_piece d h t0 r t q : any_head m (len t0) h -> P t0 -> run d r t q -> run d (h +:+ t0 +:+ r) (t0 +:+ t) q.
Proof.
  intros A V (f & F). exists (S f). rewrite segments_step, (pull_piece _ _ _ A), (other_step _ _ _ (hd_other _)), kind_of. unfold good in V. cbv iota.
  rewrite read_body_app, V, F. reflexivity.
Qed.

Scheme strung_ind2 := Induction for strung Sort Prop with pieces_ind2 := Induction for pieces Sort Prop.
Combined Scheme strung_mutind from strung_ind2, pieces_ind2.

Lemma strung_run :
  (forall t s, strung m P t s -> forall d r t' q, run d r t' q -> run d (s +:+ r) (t +:+ t') q)
  /\ (forall t s, pieces m P t s -> (forall r, run 0 (s +:+ r) t r) /\ forall d r t' q, run d r t' q -> run (S d) (s +:+ r) (t +:+ t') q).
Proof.
  apply strung_mutind.
  - intros t h A V d r t' q R. rewrite sapp_assoc. now apply run_piece.
  - intros t s _ [_ IH] d r t' q R. rewrite sapp_assoc. apply run_open. now apply IH.
  - split; [apply run_break|]. intros d r t' q R. now apply run_inner.
  - intros t s t' s' _ IH _ [IH0 IHS]. split.
    + intros r. rewrite sapp_assoc. apply IH. apply IH0.
    + intros d r t2 q R. rewrite !sapp_assoc. apply IH. now apply IHS.
Qed.

(** [d] strings are open around the pieces. *)
Fixpoint layers (d : nat) (t s : string) : Prop :=
  match d with
  | O => pieces m P t s
  | S d => exists t1 s1 t2 s2, pieces m P t1 s1 /\ layers d t2 s2 /\ t = t1 +:+ t2 /\ s = s1 +:+ s2
  end.
Lemma layers_more d t0 s0 t s : strung m P t0 s0 -> layers d t s -> layers d (t0 +:+ t) (s0 +:+ s).
Proof.
  intros H. destruct d as [|d]; cbn [layers]; [now apply pieces_more|].
  intros (t1 & z1 & t2 & z2 & A & B & -> & ->). exists (t0 +:+ t1), (s0 +:+ z1), t2, z2.
  rewrite !sapp_assoc. split; [now apply pieces_more|]. now split.
Qed.
Lemma run_layers f : forall d s t r, read_segments text f d s = Some (t, r) -> exists p, layers d t p /\ s = p +:+ r.
Proof.
  induction f as [|f IH]; intros d s t r H; [discriminate|]. rewrite segments_step in H.
  destruct (pull s) as [[h q]|] eqn:E; [|discriminate]. apply pull_some in E as [E _].
  assert (B : h = HBreak \/ h <> HBreak) by (destruct h; auto; right; discriminate). destruct B as [->|B].
  - cbn [header_text] in E. subst s. destruct d as [|d].
    + injection H as <- <-. exists break. split; [constructor|reflexivity].
    + destruct (IH _ _ _ _ H) as (p & Lp & ->). exists (break +:+ p). split; [|now rewrite sapp_assoc].
      exists EmptyString, break, t, p. split; [constructor|]. now split.
  - rewrite (other_step h _ _ B) in H. destruct (kind h) as [n|] eqn:K; [|discriminate]. rename H into H'.
    apply kind_hd in K. subst h. apply hd_text in E. destruct n as [n|].
    + destruct E as (x & A & ->). destruct (read_body n q) as [[t0 q0]|] eqn:RB; [|discriminate].
      destruct (negb text || utf8_valid t0) eqn:V; [|discriminate]. apply read_body_some in RB as [-> <-].
      destruct (read_segments text f d q0) as [[u z]|] eqn:R; [|discriminate]. injection H' as <- <-.
      destruct (IH _ _ _ _ R) as (p & Lp & ->). exists ((x +:+ t0) +:+ p). split; [|now rewrite !sapp_assoc].
      apply layers_more; [now apply strung_whole|exact Lp].
    + subst s. destruct (IH _ _ _ _ H') as (p & (t1 & z1 & t2 & z2 & A & Lp & -> & ->) & ->).
      exists ((indefinite m +:+ z1) +:+ z2). split; [|now rewrite !sapp_assoc].
      apply layers_more; [now apply strung_pieces|exact Lp].
Qed.

Lemma read_string_iff s t r :
  (exists n q, pull s = Some (hd n, q) /\ read_string text n q = Some (t, r)) <-> exists x, strung m P t x /\ s = x +:+ r.
Proof.
  split.
  - intros (n & q & E & R). apply pull_some in E as [E _]. apply hd_text in E. unfold read_string in R. destruct n as [n|].
    + destruct E as (x & A & ->). destruct (read_body n q) as [[t0 q0]|] eqn:RB; [|discriminate].
      destruct (negb text || utf8_valid t0) eqn:V; [|discriminate]. injection R as <- <-. apply read_body_some in RB as [-> <-].
      exists (x +:+ t0). split; [now apply strung_whole|now rewrite sapp_assoc].
    + subst s. apply run_layers in R as (p & Lp & ->). exists (indefinite m +:+ p). split; [now apply strung_pieces|now rewrite sapp_assoc].
  - intros (x & [t0 h A V|t0 z Pz] & ->).
    + exists (Some (len t0)), (t0 +:+ r). rewrite sapp_assoc, (pull_piece _ _ _ A). split; [reflexivity|].
      unfold read_string. rewrite read_body_app. unfold good in V. now rewrite V.
    + exists None, (z +:+ r). rewrite sapp_assoc, pull_opened. split; [reflexivity|]. unfold read_string.
      destruct (proj1 (proj2 strung_run _ _ Pz) r) as (f & F). apply (segments_more f _ _ _ _ F). lia.
Qed.
End Strings.

Lemma strung_impl m (P Q : string -> Prop) : (forall t, P t -> Q t) ->
  (forall t s, strung m P t s -> strung m Q t s) /\ (forall t s, pieces m P t s -> pieces m Q t s).
Proof.
  intros H. apply strung_mutind; intros.
  - apply strung_whole; auto.
  - now apply strung_pieces.
  - constructor.
  - now apply pieces_more.
Qed.
Lemma byte_string_good t s : strung 2 (good false) t s <-> byte_string t s.
Proof. split; apply (strung_impl 2); intros; [exact I|reflexivity]. Qed.
Lemma bytes_iff s t r : (exists n q, pull s = Some (HBytes n, q) /\ read_string false n q = Some (t, r))
  <-> exists x, byte_string t x /\ s = x +:+ r.
Proof.
  rewrite (read_string_iff false s t r). split; intros (x & X & E); exists x; (split; [|exact E]); now apply byte_string_good.
Qed.

(* ------------------------------------------------------------ readers *)
Lemma tagged_iff s (F : header -> string -> Prop) : (forall n r, ~ F (HTag n) r) ->
  ((exists h r, next_header s = Some (h, r) /\ F h r)
   <-> exists t q, tags any_tag t /\ s = t +:+ q /\ exists h r, pull q = Some (h, r) /\ F h r).
Proof.
  intros HF. split.
  - intros (h & r & H & X). apply next_header_iff in H as (_ & t & q & T & E & Q). exists t, q. split; [exact T|]. split; [exact E|]. now exists h, r.
  - intros (t & q & T & E & h & r & Q & X). exists h, r. split; [|exact X]. apply next_header_iff. split; [|now exists t, q].
    destruct h; try exact I. now apply HF in X.
Qed.

Lemma read_text_iff s t r :
  read_text s = Some (t, r) <-> exists g x, tags any_tag g /\ text_string t x /\ s = g +:+ x +:+ r.
Proof.
  transitivity (exists h q, next_header s = Some (h, q) /\ match h with HText n => read_string true n q = Some (t, r) | _ => False end).
  { unfold read_text. split.
    - destruct (next_header s) as [[h q]|]; [|discriminate]. destruct h; try discriminate. intros H. eexists _, q. split; [reflexivity|exact H].
    - intros (h & q & -> & H). destruct h; try contradiction. exact H. }
  rewrite tagged_iff by auto. split.
  - intros (g & q & T & -> & h & z & Q & H). destruct h as [?|?|?|n|?|?|?|?| |]; try contradiction.
    destruct (proj1 (read_string_iff true q t r)) as (x & X & ->); [now exists n, z|]. now exists g, x.
  - intros (g & x & T & X & ->). exists g, (x +:+ r). split; [exact T|]. split; [reflexivity|].
    destruct (proj2 (read_string_iff true (x +:+ r) t r)) as (n & z & Q & H); [now exists x|]. now exists (HText n), z.
Qed.

Lemma pull_unit u r : unit_item u -> exists n, pull (u +:+ r) = Some (HSimple n, r) /\ ((n =? 22) || (n =? 23) = true).
Proof. intros [n [->| ->]|n [->| ->]]; eexists; split; reflexivity. Qed.
Lemma read_unit_iff s r : read_unit s = Some r <-> exists u, null_item u /\ s = u +:+ r.
Proof.
  transitivity (exists h q, next_header s = Some (h, q) /\ match h with HSimple n => (n = 22 \/ n = 23) /\ q = r | _ => False end).
  { unfold read_unit. split.
    - destruct (next_header s) as [[h q]|]; [|discriminate]. destruct h as [?|?|?|?|?|?|?|n| |]; try discriminate.
      destruct ((n =? 22) || (n =? 23)) eqn:E; [|discriminate]. intros H. injection H as ->. exists (HSimple n), r.
      split; [reflexivity|]. split; [|reflexivity]. apply orb_prop in E as [E|E]; apply N.eqb_eq in E; auto.
    - intros (h & q & -> & H). destruct h as [?|?|?|?|?|?|?|n| |]; try contradiction. destruct H as [[->| ->] ->]; reflexivity. }
  rewrite tagged_iff by auto. split.
  - intros (g & q & T & -> & h & z & Q & H). destruct h as [?|?|?|?|?|?|?|n| |]; try contradiction. destruct H as [H ->].
    apply pull_some in Q as [[[_ ->]|(c & C & ->)] _].
    + exists (g +:+ s1 (chr (32 * 7 + n))). split; [|now rewrite sapp_assoc]. exists g, (s1 (chr (32 * 7 + n))).
      split; [exact T|]. split; [now constructor|reflexivity].
    + exists (g +:+ String (chr (32 * 7 + 24)) (s1 (chr n))). split.
      * exists g, (String (chr (32 * 7 + 24)) (s1 (chr n))). split; [exact T|]. split; [now constructor|reflexivity].
      * rewrite sapp_assoc. now rewrite <- C, chr_byte.
  - intros (v & (g & u & T & U & ->) & ->). exists g, (u +:+ r). split; [exact T|]. split; [apply sapp_assoc|].
    destruct (pull_unit u r U) as (n & Q & E). exists (HSimple n), r. split; [exact Q|]. split; [|reflexivity].
    apply orb_prop in E as [E|E]; apply N.eqb_eq in E; auto.
Qed.

(** One step of [read_u8_from]. *)
Definition below_256 (x : option (N * string)) : option (ascii * string) :=
  match x with Some (n, r) => if n <? 256 then Some (chr n, r) else None | None => None end.
Lemma below_iff x c r : below_256 x = Some (c, r) <-> x = Some (byte c, r).
Proof.
  unfold below_256. destruct x as [[n q]|]; [|split; discriminate]. destruct (n <? 256) eqn:E; split; intros H; try discriminate.
  - apply N.ltb_lt in E. injection H as <- <-. now rewrite byte_chr.
  - injection H as -> ->. now rewrite chr_byte.
  - injection H as -> ->. apply N.ltb_ge in E. pose proof (byte_lt c). lia.
Qed.
Lemma u8_step f s : read_u8_from (S f) s =
  match pull s with
  | Some (HPositive n, r) => below_256 (Some (n, r))
  | Some (HTag t, r) =>
      if t =? 2 then
        match pull r with
        | Some (HBytes n, q) => below_256 (match read_string false n q with Some (b, z) => Some (be_val 0 b, z) | None => None end)
        | _ => None
        end
      else if t =? 3 then None else read_u8_from f r
  | _ => None
  end.
Proof. reflexivity. Qed.
Lemma u8_some f : forall s c r, read_u8_from f s = Some (c, r) -> exists x, small_int (byte c) x /\ s = x +:+ r.
Proof.
  induction f as [|f IH]; intros s c r; [discriminate|]. rewrite u8_step.
  destruct (pull s) as [[h q]|] eqn:E; [|discriminate]. apply pull_some in E as [E _].
  destruct h as [n|?|?|?|?|?|n|?| |]; try discriminate; cbn [header_text] in E.
  - intros H. apply below_iff in H. injection H as -> ->. destruct E as (x & A & ->). exists x. split; [|reflexivity].
    exact (small_plain _ EmptyString x (tags_none _) A (byte_lt c)).
  - destruct E as (x & A & ->). destruct (n =? 2) eqn:E2.
    + apply N.eqb_eq in E2 as ->. destruct (pull q) as [[h z]|] eqn:Q; [|discriminate]. destruct h as [?|?|n|?|?|?|?|?| |]; try discriminate.
      intros H. apply below_iff in H. destruct (read_string false n z) as [[b y]|] eqn:R; [|discriminate]. injection H as Hb ->.
      destruct (proj1 (bytes_iff q b r)) as (w & W & ->); [now exists n, z|]. exists (x +:+ w). split; [|now rewrite sapp_assoc].
      apply (small_big _ EmptyString x b w (tags_none _) A W); [now rewrite <- be_val_number|apply byte_lt].
    + destruct (n =? 3) eqn:E3; [discriminate|]. apply N.eqb_neq in E2, E3. intros H. destruct (IH _ _ _ H) as (y & Y & ->).
      exists (x +:+ y). split; [|now rewrite sapp_assoc].
      assert (T : forall t, tags (fun k => k <> 2 /\ k <> 3) t -> tags (fun k => k <> 2 /\ k <> 3) (x +:+ t)) by (intros t; now apply (tags_more _ n)).
      destruct Y as [t h Ht Ah L|t h b z Ht Ah B Nb L].
      * rewrite <- sapp_assoc. apply small_plain; auto.
      * rewrite <- sapp_assoc. apply (small_big _ (x +:+ t) h b z); auto.
Qed.
Lemma u8_tags t s x : tags (fun k => k <> 2 /\ k <> 3) t ->
  (forall f, (String.length s < f)%nat -> read_u8_from f s = Some x) ->
  forall f, (String.length (t +:+ s) < f)%nat -> read_u8_from f (t +:+ s) = Some x.
Proof.
  intros T H. induction T as [|n h z A [N2 N3] T IH]; intros f L; [now apply H|]. destruct f as [|f]; [lia|].
  rewrite u8_step, sapp_assoc, (pull_any 6 n h _ eq_refl A). cbn [header_of N.eqb Pos.eqb]. apply N.eqb_neq in N2, N3. rewrite N2, N3.
  apply IH. rewrite sapp_assoc, slen_app in L. assert (1 <= String.length h)%nat by (destruct A; cbn; lia). lia.
Qed.
Lemma read_u8_iff s c r : read_u8 s = Some (c, r) <-> exists x, small_int (byte c) x /\ s = x +:+ r.
Proof.
  unfold read_u8. split; [apply u8_some|]. intros (x & [t h T A L|t h b z T A B Nb L] & ->); rewrite !sapp_assoc.
  - apply (u8_tags t (h +:+ r) (c, r) T); [|lia]. intros f F. destruct f as [|f]; [lia|]. rewrite u8_step, (pull_any 0 _ h _ eq_refl A).
    cbn [header_of N.eqb Pos.eqb]. now apply below_iff.
  - apply (u8_tags t (h +:+ z +:+ r) (c, r) T); [|lia]. intros f F. destruct f as [|f]; [lia|].
    rewrite u8_step, (pull_any 6 2 h _ eq_refl A). cbn [header_of N.eqb Pos.eqb].
    destruct (proj2 (bytes_iff (z +:+ r) b r)) as (n & q & Q & R); [now exists z|]. rewrite Q, R. apply below_iff. now rewrite be_val_number, Nb.
Qed.
(** Something other than a break comes next. *)
Definition starts (s : string) : Prop := exists h q, pull s = Some (h, q) /\ h <> HBreak.
Lemma starts_tags P t s : tags P t -> starts s -> starts (t +:+ s).
Proof.
  intros [|k h z A _ _] H; [exact H|]. rewrite sapp_assoc. unfold starts. rewrite (pull_any 6 k h _ eq_refl A).
  eexists _, _. split; [reflexivity|discriminate].
Qed.
Lemma small_int_first n x r : small_int n x -> starts (x +:+ r).
Proof.
  intros [t h Ht A L|t h b z Ht A B Nb L]; rewrite !sapp_assoc; apply (starts_tags _ _ _ Ht); unfold starts.
  - rewrite (pull_any 0 _ h _ eq_refl A). eexists _, _. split; [reflexivity|discriminate].
  - rewrite (pull_any 6 2 h _ eq_refl A). eexists _, _. split; [reflexivity|discriminate].
Qed.
Lemma small_int_len n x : small_int n x -> (1 <= String.length x)%nat.
Proof. intros [t h _ A _|t h b z _ A _ _ _]; rewrite ?slen_app; assert (1 <= String.length h)%nat by (destruct A; cbn; lia); lia. Qed.

Lemma u8s_some f : forall left s b r, read_u8s f left s = Some (b, r) ->
  exists x, small_ints b x /\
    match left with Some n => n = len b /\ s = x +:+ r | None => s = x +:+ break +:+ r end.
Proof.
  induction f as [|f IH]; intros left s b r; [discriminate|]. cbn [read_u8s].
  destruct (next_element left s) as [[[left'|] q]|] eqn:E; [| |discriminate].
  - destruct (read_u8 q) as [[c z]|] eqn:R; [|discriminate]. apply read_u8_iff in R as (x & X & ->).
    destruct (read_u8s f left' z) as [[b' y]|] eqn:R; [|discriminate]. intros H. injection H as <- <-.
    destruct (IH _ _ _ _ R) as (w & W & Q). exists (x +:+ w). split; [now constructor|].
    destruct left as [n|]; cbn [next_element] in E.
    + destruct (n =? 0) eqn:E0; [discriminate|]. apply N.eqb_neq in E0. injection E as <- ->. destruct Q as [Q ->].
      split; [|now rewrite sapp_assoc]. unfold len in *. cbn [String.length]. lia.
    + destruct (pull s) as [[[] p]|]; try discriminate; injection E as <- ->; rewrite Q; now rewrite sapp_assoc.
  - intros H. injection H as <- <-. exists EmptyString. split; [constructor|]. destruct left as [n|]; cbn [next_element] in E.
    + destruct (n =? 0) eqn:E0; [|discriminate]. apply N.eqb_eq in E0 as ->. injection E as ->. now split.
    + destruct (pull s) as [[h p]|] eqn:P; [|discriminate]. destruct h; try discriminate. injection E as ->.
      apply pull_some in P as [P _]. exact P.
Qed.
Lemma u8s_counted b x r : small_ints b x -> forall f, (String.length x < f)%nat -> read_u8s f (Some (len b)) (x +:+ r) = Some (b, r).
Proof.
  intros H. induction H as [|c b s s' X Y IH]; intros f L; (destruct f as [|f]; [lia|]); cbn [read_u8s next_element]; [reflexivity|].
  change (len (String c b)) with (N.of_nat (S (String.length b))). rewrite (proj2 (N.eqb_neq _ _)) by lia. rewrite sapp_assoc.
  rewrite (proj2 (read_u8_iff _ c (s' +:+ r))) by (now exists s).
  replace (N.of_nat (S (String.length b)) - 1) with (len b) by (unfold len; lia).
  rewrite IH; [reflexivity|]. rewrite slen_app in L. pose proof (small_int_len _ _ X). lia.
Qed.
Lemma u8s_open b x r : small_ints b x -> forall f, (String.length x < f)%nat -> read_u8s f None (x +:+ break +:+ r) = Some (b, r).
Proof.
  intros H. induction H as [|c b s s' X Y IH]; intros f L; (destruct f as [|f]; [lia|]).
  - cbn [String.append]. cbn [read_u8s next_element]. change (pull (break +:+ r)) with (Some (HBreak, r)). reflexivity.
  - cbn [read_u8s next_element]. rewrite sapp_assoc. destruct (small_int_first _ _ (s' +:+ break +:+ r) X) as (h & q & Q & B). rewrite Q.
    assert (E : match h with HBreak => Some (None, q) | _ => Some (Some (@None N), s +:+ s' +:+ break +:+ r) end = Some (Some None, s +:+ s' +:+ break +:+ r))
      by (destruct h; try reflexivity; now destruct B).
    rewrite E. rewrite (proj2 (read_u8_iff _ c (s' +:+ break +:+ r))) by (now exists s).
    rewrite IH; [reflexivity|]. rewrite slen_app in L. pose proof (small_int_len _ _ X). lia.
Qed.
Lemma read_bytes_iff s b r : read_bytes s = Some (b, r) <-> exists x, bytes_item b x /\ s = x +:+ r.
Proof.
  transitivity (exists h q, next_header s = Some (h, q) /\
    match h with HBytes n => read_string false n q = Some (b, r) | HArray n => read_u8s (S (String.length q)) n q = Some (b, r) | _ => False end).
  { unfold read_bytes. split.
    - destruct (next_header s) as [[h q]|]; [|discriminate]. destruct h; try discriminate; intros H; eexists _, q; (split; [reflexivity|exact H]).
    - intros (h & q & -> & H). destruct h; try contradiction; exact H. }
  rewrite tagged_iff by auto. split.
  - intros (g & q & T & -> & h & z & Q & H). destruct h as [?|?|n|?|n|?|?|?| |]; try contradiction.
    + destruct (proj1 (bytes_iff q b r)) as (x & X & ->); [now exists n, z|]. exists (g +:+ x). split; [now apply bytes_string|now rewrite sapp_assoc].
    + apply u8s_some in H as (x & X & E). apply pull_some in Q as [Q _]. cbn [header_text] in Q. destruct n as [n|].
      * destruct Q as (h & A & ->). destruct E as [-> ->]. exists (g +:+ h +:+ x). split; [now apply bytes_array|now rewrite !sapp_assoc].
      * subst q z. exists (g +:+ indefinite 4 +:+ x +:+ break). split; [now apply bytes_open_array|now rewrite !sapp_assoc].
  - intros (x & [t y T Y|t h y T A Y|t y T Y] & ->); exists t; eexists; (split; [exact T|]); (split; [rewrite !sapp_assoc; reflexivity|]).
    + destruct (proj2 (bytes_iff (y +:+ r) b r)) as (n & q & Q & R); [now exists y|]. now exists (HBytes n), q.
    + exists (HArray (Some (len b))), (y +:+ r). split; [now rewrite (pull_any 4 _ h _ eq_refl A)|].
      apply u8s_counted; [exact Y|]. rewrite slen_app. lia.
    + exists (HArray None), (y +:+ break +:+ r). split; [apply pull_open_array|]. apply u8s_open; [exact Y|]. rewrite slen_app. lia.
Qed.

(* ------------------------------------------------------------ handovers and transcripts *)
Definition array_left (k : N) (left : option N) : Prop := match left with Some n => k <= n | None => True end.
Lemma array_iff k s r :
  (exists left, next_header s = Some (HArray left, r) /\ array_left k left) <-> exists a, array_of k a /\ s = a +:+ r.
Proof.
  transitivity (exists h q, next_header s = Some (h, q) /\ match h with HArray l => array_left k l /\ q = r | _ => False end).
  { split.
    - intros (l & H & L). exists (HArray l), r. auto.
    - intros (h & q & H & X). destruct h as [?|?|?|?|l|?|?|?| |]; try contradiction. destruct X as [L ->]. now exists l. }
  rewrite tagged_iff by auto. split.
  - intros (g & q & T & -> & h & z & Q & H). destruct h as [?|?|?|?|l|?|?|?| |]; try contradiction. destruct H as [L ->].
    apply pull_some in Q as [Q _]. cbn [header_text] in Q. destruct l as [n|].
    + destruct Q as (h & A & ->). exists (g +:+ h). split; [now apply (array_counted k g n)|now rewrite sapp_assoc].
    + subst q. exists (g +:+ indefinite 4). split; [now apply array_open|now rewrite sapp_assoc].
  - intros (a & [t n h T A L|t T] & ->); exists t; eexists; (split; [exact T|]); (split; [rewrite !sapp_assoc; reflexivity|]).
    + exists (HArray (Some n)), r. split; [now rewrite (pull_any 4 _ h _ eq_refl A)|now split].
    + exists (HArray None), r. split; [apply pull_open_array|now split].
Qed.

Lemma starts_text t x r : text_string t x -> starts (x +:+ r).
Proof.
  intros X. destruct (proj2 (read_string_iff true (x +:+ r) t r)) as (n & z & Q & _); [now exists x|].
  exists (HText n), z. split; [exact Q|discriminate].
Qed.
Lemma starts_bytes b x r : bytes_item b x -> starts (x +:+ r).
Proof.
  intros [t y T Y|t h y T A Y|t y T Y]; rewrite !sapp_assoc; apply (starts_tags _ _ _ T).
  - destruct (proj2 (bytes_iff (y +:+ r) b r)) as (n & q & Q & _); [now exists y|]. exists (HBytes n), q. split; [exact Q|discriminate].
  - eexists _, _. split; [now rewrite (pull_any 4 _ h _ eq_refl A)|discriminate].
  - eexists _, _. split; [apply pull_open_array|discriminate].
Qed.
Lemma starts_null u r : null_item u -> starts (u +:+ r).
Proof.
  intros (g & v & T & U & ->). rewrite sapp_assoc. apply (starts_tags _ _ _ T). destruct (pull_unit v r U) as (n & Q & _).
  exists (HSimple n), r. split; [exact Q|discriminate].
Qed.
Lemma starts_array k a r : array_of k a -> starts (a +:+ r).
Proof.
  intros [t n h T A L|t T]; rewrite sapp_assoc; apply (starts_tags _ _ _ T).
  - eexists _, _. split; [now rewrite (pull_any 4 _ h _ eq_refl A)|discriminate].
  - eexists _, _. split; [apply pull_open_array|discriminate].
Qed.
Lemma starts_handover id h s : begins_handover id h s -> starts s.
Proof. intros (a & t & x & b & rest & A & _ & _ & _ & ->). now apply (starts_array 2). Qed.

Definition one_less (left : option N) : option N := match left with Some n => Some (n - 1) | None => None end.
Lemma element_iff left s left' r :
  next_element left s = Some (Some left', r) <->
  r = s /\ left' = one_less left /\ match left with Some n => n <> 0 | None => starts s end.
Proof.
  unfold next_element, one_less. destruct left as [n|].
  - destruct (n =? 0) eqn:E; [apply N.eqb_eq in E|apply N.eqb_neq in E]; split.
    + discriminate. + intros (_ & _ & X). now destruct X.
    + intros H. injection H as <- <-. auto. + intros (-> & -> & _). reflexivity.
  - split.
    + destruct (pull s) as [[h q]|] eqn:P; [|discriminate]. intros H. assert (h <> HBreak) by (intros ->; discriminate).
      assert (H' : Some (Some (@None N), s) = Some (Some left', r)) by (destruct h; congruence).
      injection H' as <- <-. split; [reflexivity|]. split; [reflexivity|]. now exists h, q.
    + intros (-> & -> & h & q & P & B). rewrite P. destruct h; try reflexivity. now destruct B.
Qed.
Lemma no_element_iff left s r :
  next_element left s = Some (None, r) <-> match left with Some n => n = 0 /\ r = s | None => s = break +:+ r end.
Proof.
  unfold next_element. destruct left as [n|].
  - destruct (n =? 0) eqn:E; [apply N.eqb_eq in E|apply N.eqb_neq in E]; split.
    + intros H. injection H as <-. auto. + intros [_ ->]. reflexivity.
    + discriminate. + intros [X _]. now destruct E.
  - split.
    + destruct (pull s) as [[h q]|] eqn:P; [|discriminate]. destruct h; try discriminate. intros H. injection H as <-.
      apply pull_some in P as [P _]. exact P.
    + intros ->. now rewrite pull_break.
Qed.

Lemma read_handover_iff id s h :
  (exists r, read_handover id s = Some (h, r)) <-> begins_handover id h s.
Proof.
  unfold read_handover, begins_handover. split.
  - intros (r & H). destruct (next_header s) as [[hd q]|] eqn:A; [|discriminate]. destruct hd as [?|?|?|?|l|?|?|?| |]; try discriminate.
    destruct (next_element l q) as [[[l1|] q1]|] eqn:E1; try discriminate. apply element_iff in E1 as (-> & -> & L1).
    destruct (read_text q) as [[t q2]|] eqn:T; [|discriminate]. destruct (String.eqb_spec t id) as [->|]; [|discriminate]. cbn [negb] in H.
    destruct (next_element (one_less l) q2) as [[[l2|] q3]|] eqn:E2; try discriminate. apply element_iff in E2 as (-> & _ & L2).
    apply read_bytes_iff in H as (b & B & ->). apply read_text_iff in T as (g & x & G & X & ->).
    destruct (proj1 (array_iff 2 s (g +:+ x +:+ b +:+ r))) as (a & Ha & ->).
    { exists l. split; [exact A|]. destruct l as [n|]; [|exact I]. cbn [one_less array_left] in *. lia. }
    exists a, g, x, b, r. auto.
  - intros (a & g & x & b & rest & A & G & X & B & ->). exists rest.
    destruct (proj2 (array_iff 2 (a +:+ g +:+ x +:+ b +:+ rest) (g +:+ x +:+ b +:+ rest))) as (l & -> & L); [now exists a|].
    rewrite (proj2 (element_iff l (g +:+ x +:+ b +:+ rest) (one_less l) (g +:+ x +:+ b +:+ rest))).
    2:{ split; [reflexivity|]. split; [reflexivity|]. destruct l as [n|]; cbn in L; [lia|]. apply (starts_tags _ _ _ G). now apply (starts_text id). }
    rewrite (proj2 (read_text_iff _ id (b +:+ rest))) by (now exists g, x). rewrite String.eqb_refl. cbn [negb].
    rewrite (proj2 (element_iff (one_less l) (b +:+ rest) (one_less (one_less l)) (b +:+ rest))).
    2:{ split; [reflexivity|]. split; [reflexivity|]. destruct l as [n|]; cbn in L |- *; [lia|]. now apply (starts_bytes h). }
    apply read_bytes_iff. now exists b.
Qed.

Lemma optional_unit_iff left s left' r :
  optional_unit left s = Some (left', r) <->
  (exists u, null_item u /\ s = u +:+ r /\ left' = one_less left /\ match left with Some n => n <> 0 | None => True end)
  \/ (left' = left /\ match left with Some n => n = 0 /\ r = s | None => s = break +:+ r end).
Proof.
  unfold optional_unit. split.
  - destruct (next_element left s) as [[[l|] q]|] eqn:E; [| |discriminate].
    + apply element_iff in E as (-> & -> & L). destruct (read_unit s) as [z|] eqn:U; [|discriminate]. intros H. injection H as <- <-.
      apply read_unit_iff in U as (u & U & ->). left. exists u. split; [exact U|]. split; [reflexivity|]. split; [reflexivity|].
      destruct left; [exact L|exact I].
    + intros H. injection H as <- <-. apply no_element_iff in E. right. now split.
  - intros [(u & U & -> & -> & L)|[-> L]].
    + rewrite (proj2 (element_iff left (u +:+ r) (one_less left) (u +:+ r))).
      * now rewrite (proj2 (read_unit_iff (u +:+ r) r)) by (now exists u).
      * split; [reflexivity|]. split; [reflexivity|]. destruct left; [exact L|]. now apply starts_null.
    + now rewrite (proj2 (no_element_iff left s r) L).
Qed.
Lemma read_transcript_iff id s h :
  (exists r, read_transcript id s = Some (h, r)) <-> begins_transcript id h s \/ closed_early id h s.
Proof.
  unfold read_transcript. split.
  - intros (r & H). destruct (next_header s) as [[hd q]|] eqn:A; [|discriminate]. destruct hd as [?|?|?|?|l|?|?|?| |]; try discriminate.
    destruct (optional_unit l q) as [[l1 q1]|] eqn:U1; [|discriminate]. destruct (optional_unit l1 q1) as [[l2 q2]|] eqn:U2; [|discriminate].
    destruct (next_element l2 q2) as [[[l3|] q3]|] eqn:E; try discriminate. apply element_iff in E as (-> & _ & L3).
    assert (Hh : begins_handover id h q2) by (apply read_handover_iff; now exists r).
    apply optional_unit_iff in U1, U2. destruct l as [n|].
    + left. destruct U1 as [(u & U & -> & -> & L1)|[-> [-> ->]]]; cbn [one_less] in *.
      * destruct U2 as [(v & V & -> & -> & L2)|[-> [L2 ->]]]; [|lia].
        destruct (proj1 (array_iff 3 s (u +:+ v +:+ q2))) as (a & Ha & ->); [exists (Some n); split; [exact A|cbn in *; lia]|].
        exists a, u, v, q2. auto.
      * destruct U2 as [(v & V & -> & -> & L2)|[-> [L2 ->]]]; lia.
    + assert (O : exists t, tags any_tag t /\ s = t +:+ indefinite 4 +:+ q).
      { apply next_header_iff in A as (_ & t & z & T & -> & Q). exists t. split; [exact T|]. apply pull_some in Q as [Q _]. now rewrite Q. }
      destruct O as (t & T & ->). cbn [one_less] in *.
      destruct U1 as [(u & U & -> & -> & _)|[-> ->]], U2 as [(v & V & -> & -> & _)|[-> ->]].
      * left. exists (t +:+ indefinite 4), u, v, q2. split; [now apply array_open|]. rewrite sapp_assoc. auto.
      * right. exists t, u, break, q2. auto 10.
      * right. exists t, break, v, q2. auto 10.
      * right. exists t, break, break, q2. auto 10.
  - intros X.
    assert (Y : exists l u v r1 r2, next_header s = Some (HArray l, r1) /\ optional_unit l r1 = Some (u, r2)
              /\ exists r3, optional_unit u r2 = Some (v, r3) /\ begins_handover id h r3 /\ match v with Some n => n <> 0 | None => True end).
    { destruct X as [(a & u & v & r & A & U & V & B & ->)|(t & u & v & r & T & U & V & _ & B & ->)].
      - destruct (proj2 (array_iff 3 (a +:+ u +:+ v +:+ r) (u +:+ v +:+ r))) as (l & E & L); [now exists a|].
        exists l, (one_less l), (one_less (one_less l)), (u +:+ v +:+ r), (v +:+ r). split; [exact E|]. split.
        + apply optional_unit_iff. left. exists u. split; [exact U|]. split; [reflexivity|]. split; [reflexivity|]. destruct l; cbn in *; [lia|exact I].
        + exists r. split; [|split; [exact B|destruct l; cbn in *; [lia|exact I]]].
          apply optional_unit_iff. left. exists v. split; [exact V|]. split; [reflexivity|]. split; [reflexivity|]. destruct l; cbn in *; [lia|exact I].
      - exists None, None, None, (u +:+ v +:+ r), (v +:+ r). split.
        { apply next_header_iff. split; [exact I|]. exists t, (indefinite 4 +:+ u +:+ v +:+ r). split; [exact T|]. split; [reflexivity|apply pull_open_array]. }
        split; [|exists r; split; [|now split]]; apply optional_unit_iff.
        + destruct U as [U| ->]; [left; now exists u|right; now split].
        + destruct V as [V| ->]; [left; now exists v|right; now split]. }
    destruct Y as (l & u & v & r1 & r2 & -> & -> & r3 & -> & B & L).
    rewrite (proj2 (element_iff v r3 (one_less v) r3)).
    + now apply read_handover_iff.
    + split; [reflexivity|]. split; [reflexivity|]. destruct v; [exact L|]. now apply (starts_handover id h).
Qed.
