(** Proofs: which texts name a session. *)
From Coq Require Import Lia ZArith.
From Verif Require Import Base BaseFacts Base64 JsonText Builder ExVerifier UuidFacts SpecWebUrl SpecHost HostFacts SpecIds.

Lemma fold_number s u : hex_fold s 0 = Some u <-> number 16 s u.
Proof.
  revert u. assert (G : forall n s, String.length s = n -> forall u, hex_fold s 0 = Some u <-> number 16 s u).
  { induction n as [|n IH]; intros t L u.
    - destruct t; [|discriminate]. cbn. split; [intros [= <-]; constructor|]. intros N. inversion N; subst; [reflexivity|].
      destruct s0; discriminate.
    - destruct (str_snoc t) as [->|(a & c & ->)]; [discriminate|]. rewrite append_len in L. cbn in L.
      rewrite hex_fold_app. specialize (IH a ltac:(lia)). split.
      + destruct (hex_fold a 0) as [v|] eqn:E; [|discriminate]. cbn [hex_fold]. destruct (hex_val c) as [d|] eqn:D; [|discriminate].
        intros [= <-]. rewrite (N.mul_comm v). constructor; [now apply IH|now apply hex_iff|exact (hex_val_small _ _ D)].
      + intros N. inversion N as [E|s' c' v d Nv Dc Dd E]; [destruct a; discriminate|]. destruct (snoc_inj _ _ _ _ E) as [-> ->].
        apply IH in Nv. rewrite Nv. cbn [hex_fold]. apply hex_iff in Dc. rewrite Dc. f_equal. apply N.add_cancel_r, N.mul_comm. }
  intros u. exact (G _ _ eq_refl u).
Qed.
Ltac char_of E := repeat match type of E with _ && _ = true => apply andb_true_iff in E as [E ?] end.
Lemma hyphenated_iff s u : String.length s = 36 -> (uuid_of_hyphenated s = Some u <-> hyphenated s u).
Proof.
  intros L. split.
  - do 36 (destruct s as [|? s]; [discriminate|]). destruct s; [|discriminate].
    unfold uuid_of_hyphenated. destruct (_ && _) eqn:E; [|discriminate]. unfold hyphen_at in E. cbn [String.get] in E.
    apply andb_true_iff in E as [E E4]. apply andb_true_iff in E as [E E3]. apply andb_true_iff in E as [E1 E2].
    apply Ascii.eqb_eq in E1, E2, E3, E4. intros F. apply fold_number in F. subst.
    match type of F with number _ (?a +:+ ?b +:+ ?c +:+ ?d +:+ ?e) _ => exists a, b, c, d, e end.
    split; [reflexivity|split; [reflexivity|exact F]].
  - intros (a & b & c & d & e & -> & M & N). cbn [map] in M. injection M as La Lb Lc Ld Le. apply fold_number in N. refine (eq_trans _ N).
    do 8 (destruct a as [|? a]; [discriminate|]). destruct a; [|discriminate].
    do 4 (destruct b as [|? b]; [discriminate|]). destruct b; [|discriminate].
    do 4 (destruct c as [|? c]; [discriminate|]). destruct c; [|discriminate].
    do 4 (destruct d as [|? d]; [discriminate|]). destruct d; [|discriminate].
    do 12 (destruct e as [|? e]; [discriminate|]). destruct e; [|discriminate].
    reflexivity.
Qed.
Lemma hyphenated_len s u : hyphenated s u -> String.length s = 36.
Proof.
  intros (a & b & c & d & e & -> & M & _). cbn [map] in M. injection M as La Lb Lc Ld Le.
  cbn [join]. rewrite !append_len. cbn [String.length]. lia.
Qed.
Lemma braced s : String.length s = 38 -> starts_with "{" s && String.eqb (substring 37 1 s) "}" = true
  -> s = "{" +:+ substring 1 36 s +:+ "}".
Proof.
  intros L E. do 38 (destruct s as [|? s]; [discriminate|]). destruct s; [|discriminate].
  apply andb_true_iff in E as [E1 E2]. apply String.eqb_eq in E2. cbn in E2. injection E2 as ->.
  apply starts_with_iff in E1 as (t & E1). injection E1 as -> ?. reflexivity.
Qed.
(** C78: the texts that name a session: thirty-two hexadecimal digits of either case, alone or grouped with hyphens, and the
    grouped form also in braces or as a URN; the session is the one with the number that the digits denote. *)
Lemma c78_texts_pf : forall (s : string) (u : N), uuid_of_string s = Some u <-> identifier s u.
Proof.
  intros s u. unfold uuid_of_string, identifier. split.
  - destruct (Nat.eqb_spec (String.length s) 32) as [E|_]; [left; split; [exact E|now apply fold_number]|].
    destruct (Nat.eqb_spec (String.length s) 36) as [E|_]; [right; left; now apply hyphenated_iff|].
    destruct (Nat.eqb_spec (String.length s) 38) as [E|_].
    + destruct (starts_with "{" s && _) eqn:B; [|discriminate]. intros H. right. right. exists (substring 1 36 s).
      assert (B' := braced s E B). split; [now left|].
      assert (L : String.length (substring 1 36 s) = 36)
        by (rewrite B' in E; rewrite !append_len in E; cbn [String.length] in E; lia).
      now apply hyphenated_iff.
    + destruct (Nat.eqb_spec (String.length s) 45) as [E|_]; [|discriminate].
      destruct (strip_prefix "urn:uuid:" s) as [t|] eqn:P; [|discriminate]. apply strip_prefix_some in P. subst s. intros H.
      right. right. exists t. split; [now right|]. rewrite append_len in E. cbn [String.length] in E. apply hyphenated_iff; [lia|exact H].
  - intros [[L N]|[H|(h & [->| ->] & H)]].
    + rewrite L. cbn [Nat.eqb]. now apply fold_number.
    + rewrite (hyphenated_len _ _ H). cbn [Nat.eqb]. now apply hyphenated_iff; [apply (hyphenated_len _ _ H)|].
    + assert (L := hyphenated_len _ _ H). rewrite !append_len, L. cbn [String.length Nat.add Nat.eqb].
      apply (hyphenated_iff _ _ L) in H. refine (eq_trans _ H).
      do 36 (destruct h as [|? h]; [discriminate|]). destruct h; [|discriminate]. reflexivity.
    + assert (L := hyphenated_len _ _ H). rewrite !append_len, L. cbn [String.length Nat.add Nat.eqb].
      rewrite strip_prefix_app. now apply hyphenated_iff.
Qed.
Example c78_texts_ex :
  map uuid_of_string ["67e5504410b1426f9247bb680e5fe0c8"; "67e55044-10b1-426f-9247-bb680e5fe0c8"; "{67e55044-10b1-426f-9247-bb680e5fe0c8}";
                      "urn:uuid:67e55044-10b1-426f-9247-bb680e5fe0c8"]
  = repeat (Some 0x67e5504410b1426f9247bb680e5fe0c8%N) 4
  /\ map uuid_of_string ["67e55044-10b1426f-9247-bb680e5fe0c8-"; "URN:UUID:67e55044-10b1-426f-9247-bb680e5fe0c8"; ""] = [None; None; None].
Proof. vm_compute. split; reflexivity. Qed.
