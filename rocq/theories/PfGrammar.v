From Coq Require Import Lia ZArith.
From Verif Require Import Base BaseFacts Utf8 Utf8Facts Json JsonFacts JsonText JsonTextFacts Spec SpecJsonText GrammarFacts PfText.

(* ------------------------------------------------------------ strings *)
Lemma scalar_small n : (n < 65536)%N -> ((56320 <=? n) && (n <=? 57343))%N = false -> ((55296 <=? n) && (n <=? 56319))%N = false -> scalar n.
Proof. intros L A B. unfold scalar. destruct (N.leb_spec 56320 n), (N.leb_spec n 57343), (N.leb_spec 55296 n), (N.leb_spec n 56319); cbn in A, B; try discriminate; lia. Qed.
Lemma small_scalar n : scalar n -> ((56320 <=? n) && (n <=? 57343))%N = false /\ ((55296 <=? n) && (n <=? 56319))%N = false.
Proof. unfold scalar. intros H. split; apply andb_false_iff; rewrite !N.leb_gt; lia. Qed.
Lemma chr_of c n : byte c = n -> c = chr n.
Proof. intros <-. symmetry. apply chr_byte. Qed.
Definition u_body (r1 : string) : option (string * string) :=
  match r1 with
  | String h1 (String h2 (String h3 (String h4 r2))) =>
      match hex4 h1 h2 h3 h4 with
      | None => None
      | Some n =>
          if ((56320 <=? n) && (n <=? 57343))%N then None
          else if ((55296 <=? n) && (n <=? 56319))%N then
            match r2 with
            | String b1 (String u1 (String g1 (String g2 (String g3 (String g4 r3))))) =>
                if Ascii.eqb b1 bslash && Ascii.eqb u1 "u" then
                  match hex4 g1 g2 g3 g4 with
                  | Some m =>
                      if ((56320 <=? m) && (m <=? 57343))%N then
                        match parse_chars r3 with
                        | Some (t, q) => Some (utf8_encode (65536 + (n - 55296) * 1024 + (m - 56320)) +:+ t, q)
                        | None => None
                        end
                      else None
                  | None => None
                  end
                else None
            | _ => None
            end
          else
            match parse_chars r2 with
            | Some (t, q) => Some (utf8_encode n +:+ t, q)
            | None => None
            end
      end
  | _ => None
  end.
Lemma parse_u r : parse_chars (String backslash (String "u" r)) = u_body r.
Proof. reflexivity. Qed.
Lemma u_single a b c d n r : hex4 a b c d = Some n -> scalar n ->
  u_body (String a (String b (String c (String d r)))) = match parse_chars r with Some (t, q) => Some (utf8_encode n +:+ t, q) | None => None end.
Proof. intros H S. unfold u_body. rewrite H. destruct (small_scalar n S) as [-> ->]. reflexivity. Qed.
Lemma u_pair a b c d n a' b' c' d' m r : hex4 a b c d = Some n -> hex4 a' b' c' d' = Some m -> (55296 <= n <= 56319)%N -> (56320 <= m <= 57343)%N ->
  u_body (String a (String b (String c (String d (String backslash (String "u" (String a' (String b' (String c' (String d' r)))))))))) =
  match parse_chars r with Some (t, q) => Some (utf8_encode (65536 + (n - 55296) * 1024 + (m - 56320)) +:+ t, q) | None => None end.
Proof.
  intros H H' Hn Hm. unfold u_body. rewrite H.
  assert (L1 : ((56320 <=? n) && (n <=? 57343))%N = false) by (apply andb_false_iff; rewrite !N.leb_gt; lia).
  assert (L2 : ((55296 <=? n) && (n <=? 56319))%N = true) by (apply andb_true_iff; rewrite !N.leb_le; lia).
  assert (L3 : ((56320 <=? m) && (m <=? 57343))%N = true) by (apply andb_true_iff; rewrite !N.leb_le; lia).
  rewrite L1, L2. change (Ascii.eqb backslash bslash) with true. change (Ascii.eqb "u" "u") with true. cbn [andb]. rewrite H', L3. reflexivity.
Qed.
Lemma parse_short e n r : In (e, n) short_escapes -> parse_chars (String backslash (String e r)) = match parse_chars r with Some (t, q) => Some (String (chr n) t, q) | None => None end.
Proof.
  unfold short_escapes. cbn [In]. intros He. repeat (destruct He as [E|He]; [injection E as <- <-; reflexivity|]). destruct He.
Qed.
Lemma spells_parse raw t : spells raw t -> forall q, parse_chars (raw +:+ String dquote q) = Some (t, q).
Proof.
  induction 1 as [|c r t Hc Hq Hb _ IH|e c r t He _ IH|h n s r t Hh Hs _ IH|h n h' m s r t Hh Hh' Hn Hm Hs _ IH]; intros q.
  - reflexivity.
  - cbn [String.append parse_chars]. change dquote with quote. change bslash with backslash. apply Ascii.eqb_neq in Hq, Hb. rewrite Hq, Hb.
    destruct (N.ltb_spec (byte c) 32); [lia|]. change quote with dquote. rewrite IH. reflexivity.
  - cbn [String.append]. rewrite (parse_short _ _ _ He), IH, chr_byte. reflexivity.
  - destruct Hh as (a & b & c & d & w & x & y & z & -> & Hh). cbn [String.append].
    assert (H4 : hex4 a b c d = Some n) by (apply hex4_iff; do 8 eexists; split; [reflexivity|exact Hh]).
    rewrite parse_u, (u_single a b c d n _ H4 (proj1 Hs)), IH. rewrite (encodes_unique n s _ Hs (encodes_encode n (proj1 Hs))). reflexivity.
  - destruct Hh as (a & b & c & d & w & x & y & z & -> & Hh). destruct Hh' as (a' & b' & c' & d' & w' & x' & y' & z' & -> & Hh'). cbn [String.append].
    assert (H4 : hex4 a b c d = Some n) by (apply hex4_iff; do 8 eexists; split; [reflexivity|exact Hh]).
    assert (H4' : hex4 a' b' c' d' = Some m) by (apply hex4_iff; do 8 eexists; split; [reflexivity|exact Hh']).
    rewrite parse_u, (u_pair a b c d n a' b' c' d' m _ H4 H4' Hn Hm), IH. rewrite (encodes_unique _ s _ Hs (encodes_encode _ (proj1 Hs))). reflexivity.
Qed.
Lemma parse_spells k : forall s t q, String.length s <= k -> parse_chars s = Some (t, q) -> exists raw, s = raw +:+ String dquote q /\ spells raw t.
Proof.
  induction k as [|k IH]; intros [|c r] t q L; try discriminate; [cbn in L; lia|]. cbn [parse_chars String.length] in *.
  destruct (Ascii.eqb_spec c dquote) as [->|Nq]; [intros [= <- <-]; exists ""; split; [reflexivity|constructor]|].
  destruct (Ascii.eqb_spec c bslash) as [->|Nb].
  - destruct r as [|e r1]; [discriminate|]. cbn [String.length] in L.
    assert (Lit : forall x, In (e, byte x) short_escapes -> match parse_chars r1 with Some (t, q) => Some (String x t, q) | None => None end = Some (t, q) ->
      exists raw, String bslash (String e r1) = raw +:+ String dquote q /\ spells raw t).
    { intros x Hx E. destruct (parse_chars r1) as [[t1 q1]|] eqn:P; [|discriminate]. injection E as <- <-.
      destruct (IH r1 t1 q1 ltac:(lia) P) as (raw & -> & Sp). exists (String bslash (String e raw)). split; [reflexivity|]. now apply sp_short. }
    destruct (Ascii.eqb_spec e dquote) as [->|_]; [apply Lit; cbn; auto|].
    destruct (Ascii.eqb_spec e bslash) as [->|_]; [apply Lit; cbn; auto|].
    destruct (Ascii.eqb_spec e "/") as [->|_]; [apply Lit; cbn; auto|].
    destruct (Ascii.eqb_spec e "b") as [->|_]; [apply Lit; cbn; auto|].
    destruct (Ascii.eqb_spec e "f") as [->|_]; [apply Lit; cbn; auto 10|].
    destruct (Ascii.eqb_spec e "n") as [->|_]; [apply Lit; cbn; auto 10|].
    destruct (Ascii.eqb_spec e "r") as [->|_]; [apply Lit; cbn; auto 10|].
    destruct (Ascii.eqb_spec e "t") as [->|_]; [apply Lit; cbn; auto 10|].
    clear Lit. destruct (Ascii.eqb_spec e "u") as [->|_]; [|discriminate].
    destruct r1 as [|h1 [|h2 [|h3 [|h4 r2]]]]; try discriminate. cbn [String.length] in L.
    destruct (hex4 h1 h2 h3 h4) as [n|] eqn:H4; [|discriminate]. apply hex4_iff in H4.
    destruct ((56320 <=? n) && (n <=? 57343))%N eqn:L1; [discriminate|]. destruct ((55296 <=? n) && (n <=? 56319))%N eqn:L2.
    + destruct r2 as [|b1 [|u1 [|g1 [|g2 [|g3 [|g4 r3]]]]]]; try discriminate. cbn [String.length] in L.
      destruct (Ascii.eqb_spec b1 bslash) as [->|]; [|discriminate]. destruct (Ascii.eqb_spec u1 "u") as [->|]; [|discriminate]. cbn [andb].
      destruct (hex4 g1 g2 g3 g4) as [m|] eqn:G4; [|discriminate]. apply hex4_iff in G4. destruct ((56320 <=? m) && (m <=? 57343))%N eqn:L3; [|discriminate].
      destruct (parse_chars r3) as [[t1 q1]|] eqn:P; [|discriminate]. intros E. apply (f_equal (fun o => match o with Some p => p | None => ("", "") end)) in E.
      apply pair_equal_spec in E as [<- <-]. destruct (IH r3 t1 q1 ltac:(lia) P) as (raw & -> & Sp).
      apply andb_true_iff in L2 as [A1 A2], L3 as [B1 B2]. apply N.leb_le in A1, A2, B1, B2.
      eexists (String bslash ("u" +:+ String h1 (String h2 (String h3 (String h4 ""))) +:+ String bslash ("u" +:+ String g1 (String g2 (String g3 (String g4 ""))) +:+ raw))).
      split; [reflexivity|]. eapply (sp_pair _ n _ m); eauto. apply encodes_encode. right. lia.
    + destruct (parse_chars r2) as [[t1 q1]|] eqn:P; [|discriminate]. intros E. apply (f_equal (fun o => match o with Some p => p | None => ("", "") end)) in E.
      apply pair_equal_spec in E as [<- <-]. destruct (IH r2 t1 q1 ltac:(lia) P) as (raw & -> & Sp).
      exists (String bslash ("u" +:+ String h1 (String h2 (String h3 (String h4 ""))) +:+ raw)). split; [reflexivity|].
      apply (sp_unicode _ n); [exact H4| |exact Sp]. apply encodes_encode, scalar_small; auto. eapply hex_bound; eassumption.
  - destruct (N.ltb_spec (byte c) 32) as [|Hc]; [discriminate|]. destruct (parse_chars r) as [[t1 q1]|] eqn:P; [|discriminate]. intros [= <- <-].
    destruct (IH r t1 q1 ltac:(lia) P) as (raw & -> & Sp). exists (String c raw). split; [reflexivity|]. now apply sp_plain.
Qed.
Lemma literal_parse lit k : string_literal lit k -> exists rest, lit = String dquote rest /\ forall r, parse_str (rest +:+ r) = Some (k, r).
Proof.
  intros (raw & l & -> & Sp & U). exists (raw +:+ String dquote ""). split; [reflexivity|]. intros r. rewrite sapp_assoc. cbn [String.append].
  unfold parse_str. rewrite (spells_parse raw k Sp r). assert (V : utf8_valid k = true) by (apply utf8_iff; eauto). now rewrite V.
Qed.
Lemma parse_literal s k r : parse_str s = Some (k, r) -> exists lit, String dquote s = lit +:+ r /\ string_literal lit k.
Proof.
  unfold parse_str. destruct (parse_chars s) as [[t q]|] eqn:P; [|discriminate]. destruct (utf8_valid t) eqn:V; [|discriminate]. intros [= <- <-].
  destruct (parse_spells _ s t q (le_n _) P) as (raw & -> & Sp). apply utf8_iff in V as [l U].
  exists (String dquote (raw +:+ String dquote "")). split; [cbn; f_equal; now rewrite sapp_assoc|]. exists raw, l. auto.
Qed.

(* ------------------------------------------------------------ objects *)
Lemma last_get_iff k l v : last_get k l = Some v <-> last_value k l v.
Proof.
  unfold last_value. induction l as [|[k' v'] l IH]; cbn [last_get].
  - split; [discriminate|]. intros (b & a & E & _). destruct b; discriminate.
  - destruct (last_get k l) as [x|] eqn:El.
    + split.
      * intros H. apply IH in H as (b & a & -> & N). exists ((k', v') :: b), a. auto.
      * intros (b & a & E & N). destruct b as [|p b]; injection E as E1 E2.
        -- exfalso. subst. apply last_get_none in N. congruence.
        -- apply IH. exists b, a. auto.
    + destruct (String.eqb_spec k k') as [->|Hk].
      * split; [intros [= ->]; exists [], l; split; [reflexivity|]; now apply last_get_none|].
        intros (b & a & E & N). destruct b as [|p b]; injection E as E1 E2; [now subst|]. assert (last_get k' l = Some v) by (rewrite El; apply IH; eauto). congruence.
      * split; [discriminate|]. intros (b & a & E & N). destruct b as [|p b]; injection E as E1 E2; [congruence|]. assert (None = Some v) by (apply IH; eauto). discriminate.
Qed.
Lemma obj_of_list_iff l o : (keys_sorted o = true /\ forall k v, obj_get k o = Some v <-> last_value k l v) <-> o = obj_of_list l.
Proof.
  split.
  - intros [S G]. apply ksorted_ext; [now apply keys_sorted_iff|apply ksorted_of_list|]. intros k. rewrite get_of_list.
    destruct (obj_get k o) as [v|] eqn:E; [symmetry; apply last_get_iff, G, E|]. destruct (last_get k l) as [v|] eqn:E2; [|reflexivity]. apply last_get_iff, G in E2. congruence.
  - intros ->. split; [apply keys_sorted_iff, ksorted_of_list|]. intros k v. rewrite get_of_list. apply last_get_iff.
Qed.
Definition nkv (kv : string * json) : string * json := (fst kv, normalize (snd kv)).

(* ------------------------------------------------------------ what is read is denoted *)
Lemma skip_char s c r : skip_ws s = String c r -> exists w, blank w /\ s = w +:+ String c r.
Proof. intros H. destruct (skip_split s) as (w & B & E & _). exists w. rewrite H in E. auto. Qed.
Lemma take_num_split s a b : take_num s = (a, b) -> s = a +:+ b.
Proof.
  revert a b. induction s as [|c s IH]; intros a b; cbn; [intros [= <- <-]; reflexivity|]. destruct (is_numchar c).
  - destruct (take_num s) as [x y]. intros [= <- <-]. cbn. f_equal. now apply IH.
  - now intros [= <- <-].
Qed.
Lemma num_normal t v : num_of_token t = Some v -> normalize v = v.
Proof. intros H. apply number_iff in H. destruct H; reflexivity. Qed.
Lemma sound f :
  (forall n s raw r, parse_value f (S n) s = Some (raw, r) -> exists w t, blank w /\ s = w +:+ t +:+ r /\ denotes n t (normalize raw))
  /\ (forall n s l r, parse_elems f (S n) s = Some (l, r) -> exists t, s = t +:+ "]" +:+ r /\ elements n t (map normalize l))
  /\ (forall n s l r, parse_members f (S n) s = Some (l, r) -> exists t, s = t +:+ "}" +:+ r /\ members n t (map nkv l)).
Proof.
  induction f as [|f (IHv & IHe & IHm)]; [repeat split; discriminate|]. split; [|split]; intros n s.
  - intros raw r. cbn [parse_value]. destruct (skip_ws s) as [|c q] eqn:Es; [discriminate|]. apply skip_char in Es as (w & B & ->).
    assert (W : forall t v, String c q = t +:+ r -> denotes n t v -> exists w0 t0, blank w0 /\ w +:+ String c q = w0 +:+ t0 +:+ r /\ denotes n t0 v).
    { intros t v E D. exists w, t. rewrite E. auto. }
    destruct (Ascii.eqb_spec c dquote) as [->|_].
    { destruct (parse_str q) as [[k q1]|] eqn:P; [|discriminate]. intros [= <- <-]. apply parse_literal in P as (lit & E & L). eapply W; [exact E|]. now constructor. }
    destruct (Ascii.eqb_spec c "[") as [->|_].
    { destruct n as [|n]; [discriminate|]. destruct (skip_ws q) as [|c' q1] eqn:Eq; [discriminate|]. destruct (Ascii.eqb_spec c' "]") as [->|_].
      - intros [= <- <-]. apply skip_char in Eq as (w1 & B1 & ->). apply (W ("[" +:+ w1 +:+ "]")); [cbn; now rewrite sapp_assoc|]. now apply de_empty_array.
      - destruct (parse_elems f (S n) q) as [[l q2]|] eqn:P; [|discriminate]. intros [= <- <-]. apply IHe in P as (t & -> & E).
        apply (W ("[" +:+ t +:+ "]")); [cbn; now rewrite sapp_assoc|]. now apply de_array. }
    destruct (Ascii.eqb_spec c "{") as [->|_].
    { destruct n as [|n]; [discriminate|]. destruct (skip_ws q) as [|c' q1] eqn:Eq; [discriminate|]. destruct (Ascii.eqb_spec c' "}") as [->|_].
      - intros [= <- <-]. apply skip_char in Eq as (w1 & B1 & ->). apply (W ("{" +:+ w1 +:+ "}")); [cbn; now rewrite sapp_assoc|]. now apply de_empty_object.
      - destruct (parse_members f (S n) q) as [[l q2]|] eqn:P; [|discriminate]. intros [= <- <-]. apply IHm in P as (t & -> & E).
        apply (W ("{" +:+ t +:+ "}")); [cbn; now rewrite sapp_assoc|]. destruct (proj2 (obj_of_list_iff (map nkv l) (obj_of_list (map nkv l))) eq_refl) as [Ks G].
        cbn [normalize]. eapply de_object; [exact E|exact Ks|exact G]. }
    destruct (Ascii.eqb_spec c "n") as [->|_].
    { destruct (strip_prefix "ull" q) as [q1|] eqn:P; [|discriminate]. intros [= <- <-]. apply strip_prefix_some in P as ->. apply (W "null"); [reflexivity|constructor]. }
    destruct (Ascii.eqb_spec c "t") as [->|_].
    { destruct (strip_prefix "rue" q) as [q1|] eqn:P; [|discriminate]. intros [= <- <-]. apply strip_prefix_some in P as ->. apply (W "true"); [reflexivity|constructor]. }
    destruct (Ascii.eqb_spec c "f") as [->|_].
    { destruct (strip_prefix "alse" q) as [q1|] eqn:P; [|discriminate]. intros [= <- <-]. apply strip_prefix_some in P as ->. apply (W "false"); [reflexivity|constructor]. }
    destruct (take_num (String c q)) as [t q1] eqn:T. destruct (num_of_token t) as [v|] eqn:P; [|discriminate]. intros [= <- <-].
    apply (W t); [now apply take_num_split|]. rewrite (num_normal t v P). constructor. now apply number_iff.
  - intros l r. cbn [parse_elems]. destruct (parse_value f (S n) s) as [[v r1]|] eqn:P; [|discriminate]. apply IHv in P as (w & t & B & -> & D).
    destruct (skip_ws r1) as [|c q] eqn:Eq; [discriminate|]. apply skip_char in Eq as (w1 & B1 & ->). destruct (Ascii.eqb_spec c "]") as [->|_].
    + intros [= <- <-]. exists (w +:+ t +:+ w1). split; [now rewrite !sapp_assoc|]. now apply el_last.
    + destruct (Ascii.eqb_spec c ",") as [->|_]; [|discriminate]. destruct (parse_elems f (S n) q) as [[l2 q2]|] eqn:P2; [|discriminate]. intros [= <- <-].
      apply IHe in P2 as (t2 & -> & E2). exists (w +:+ t +:+ w1 +:+ "," +:+ t2). split; [now rewrite !sapp_assoc|]. now apply el_more.
  - intros l r. cbn [parse_members]. destruct (skip_ws s) as [|c q] eqn:Es; [discriminate|]. apply skip_char in Es as (w & B & ->).
    destruct (Ascii.eqb_spec c dquote) as [->|_]; [|discriminate]. destruct (parse_str q) as [[k r1]|] eqn:P; [|discriminate]. apply parse_literal in P as (lit & -> & L).
    destruct (skip_ws r1) as [|c1 r2] eqn:E1; [discriminate|]. apply skip_char in E1 as (w1 & B1 & ->). destruct (Ascii.eqb_spec c1 ":") as [->|_]; [|discriminate].
    destruct (parse_value f (S n) r2) as [[v r3]|] eqn:P; [|discriminate]. apply IHv in P as (w2 & t & B2 & -> & D).
    destruct (skip_ws r3) as [|c2 q2] eqn:E3; [discriminate|]. apply skip_char in E3 as (w3 & B3 & ->). destruct (Ascii.eqb_spec c2 "}") as [->|_].
    + intros [= <- <-]. exists (w +:+ lit +:+ w1 +:+ ":" +:+ w2 +:+ t +:+ w3). split; [now rewrite !sapp_assoc|]. now apply me_last.
    + destruct (Ascii.eqb_spec c2 ",") as [->|_]; [|discriminate]. destruct (parse_members f (S n) q2) as [[l2 q3]|] eqn:P2; [|discriminate]. intros [= <- <-].
      apply IHm in P2 as (t2 & -> & E2). exists (w +:+ lit +:+ w1 +:+ ":" +:+ w2 +:+ t +:+ w3 +:+ "," +:+ t2). split; [now rewrite !sapp_assoc|]. now apply me_more.
Qed.

(* ------------------------------------------------------------ what is denoted is read *)
Lemma value_blank f d w s : blank w -> parse_value f d (w +:+ s) = parse_value f d s.
Proof. intros B. destruct f as [|f]; [reflexivity|]. cbn [parse_value]. now rewrite (skip_blank w s B). Qed.
Lemma delim_blank w s : blank w -> delim s = true -> delim (w +:+ s) = true.
Proof.
  intros B D. destruct w as [|c w]; [exact D|]. inversion B as [|? ? Hc _]; subst. cbn [String.append delim]. cbn [In] in Hc.
  destruct Hc as [H|[H|[H|[H|[]]]]]; symmetry in H; apply chr_of in H; subst c; reflexivity.
Qed.
Definition starts (s : string) : Prop := exists w c t, blank w /\ s = w +:+ String c t /\ head_ok c = true.
Lemma starts_skip s r : starts s -> exists c q, skip_ws (s +:+ r) = String c q /\ head_ok c = true.
Proof.
  intros (w & c & t & B & -> & H). rewrite sapp_assoc, (skip_blank w _ B). cbn [String.append]. rewrite (head_ok_not_ws c (t +:+ r) H). eauto.
Qed.
Lemma starts_app w s r : blank w -> starts s -> starts (w +:+ s +:+ r).
Proof.
  intros B (w1 & c & t & B1 & -> & H). exists (w +:+ w1), c, (t +:+ r). split; [|split; [now rewrite !sapp_assoc|exact H]].
  unfold blank, chars in *. clear H. induction w as [|x w IH]; [exact B1|]. inversion B as [|? ? Hx Hw]; subst. constructor; auto.
Qed.
Lemma head_not c : head_ok c = true -> Ascii.eqb c "]" = false /\ Ascii.eqb c "}" = false.
Proof. unfold head_ok. destruct (Ascii.eqb c "]"), (Ascii.eqb c "}"); rewrite ?andb_false_r; auto. Qed.
Lemma complete_all :
  forall n t v, denotes n t v -> starts t /\ 1 <= String.length t /\ exists raw, normalize raw = v /\
    forall f r, 2 * String.length t <= f -> delim r = true -> parse_value f (S n) (t +:+ r) = Some (raw, r).
Proof.
  apply (denotes_mut
    (fun n t v _ => starts t /\ 1 <= String.length t /\ exists raw, normalize raw = v /\
      forall f r, 2 * String.length t <= f -> delim r = true -> parse_value f (S n) (t +:+ r) = Some (raw, r))
    (fun n t l _ => starts t /\ exists raws, map normalize raws = l /\
      forall f r, 2 * String.length t + 1 <= f -> parse_elems f (S n) (t +:+ "]" +:+ r) = Some (raws, r))
    (fun n t l _ => starts t /\ exists raws, map nkv raws = l /\
      forall f r, 2 * String.length t + 1 <= f -> parse_members f (S n) (t +:+ "}" +:+ r) = Some (raws, r))).
  - intros n. split; [exists "", "n"%char, "ull"; repeat split; constructor|]. split; [cbn; lia|]. exists JNull. split; [reflexivity|]. intros [|f] r L _; [cbn in L; lia|reflexivity].
  - intros n. split; [exists "", "t"%char, "rue"; repeat split; constructor|]. split; [cbn; lia|]. exists (JBool true). split; [reflexivity|]. intros [|f] r L _; [cbn in L; lia|reflexivity].
  - intros n. split; [exists "", "f"%char, "alse"; repeat split; constructor|]. split; [cbn; lia|]. exists (JBool false). split; [reflexivity|]. intros [|f] r L _; [cbn in L; lia|reflexivity].
  - intros n s v H. apply number_iff in H. destruct (num_text v s H) as (c & q & -> & Hh).
    split; [exists "", c, q; split; [constructor|]; split; [reflexivity|now apply num_head_ok]|]. split; [cbn; lia|].
    exists v. split; [eapply num_normal, H|]. intros f r L D. apply parse_num; [exact H|exact D|cbn in L; lia].
  - intros n s t H. destruct (literal_parse s t H) as (q & -> & P). split; [exists "", dquote, q; repeat split; constructor|]. split; [cbn; lia|].
    exists (JStr t). split; [reflexivity|]. intros [|f] r L _; [cbn in L; lia|]. cbn [String.append parse_value skip_ws]. change (is_ws dquote) with false. cbv iota.
    change (Ascii.eqb dquote dquote) with true. cbv iota. now rewrite P.
  - intros n w B. split; [exists "", "["%char, (w +:+ "]"); repeat split; constructor|]. split; [cbn; lia|]. exists (JArr []). split; [reflexivity|]. intros [|f] r L _; [cbn in L; lia|].
    cbn [String.append parse_value skip_ws]. change (is_ws "[") with false. cbv iota. change (Ascii.eqb "[" dquote) with false. change (Ascii.eqb "[" "[") with true. cbv iota.
    rewrite sapp_assoc, (skip_blank w _ B). reflexivity.
  - intros n s l _ (St & raws & E & P). split; [exists "", "["%char, (s +:+ "]"); repeat split; constructor|]. split; [cbn; lia|]. exists (JArr raws). split; [cbn [normalize]; now rewrite E|].
    intros [|f] r L _; [cbn in L; lia|].
    cbn [String.append parse_value skip_ws]. change (is_ws "[") with false. cbv iota. change (Ascii.eqb "[" dquote) with false. change (Ascii.eqb "[" "[") with true. cbv iota.
    rewrite sapp_assoc. destruct (starts_skip s ("]" +:+ r) St) as (c & q & Ec & Hc). rewrite Ec. destruct (head_not c Hc) as [-> _]. rewrite P; [reflexivity|].
    cbn [String.append String.length] in L. rewrite slen_app in L. cbn [String.length] in L. lia.
  - intros n w B. split; [exists "", "{"%char, (w +:+ "}"); repeat split; constructor|]. split; [cbn; lia|]. exists (JObj []). split; [reflexivity|]. intros [|f] r L _; [cbn in L; lia|].
    cbn [String.append parse_value skip_ws]. change (is_ws "{") with false. cbv iota. change (Ascii.eqb "{" dquote) with false. change (Ascii.eqb "{" "[") with false. change (Ascii.eqb "{" "{") with true. cbv iota.
    rewrite sapp_assoc, (skip_blank w _ B). reflexivity.
  - intros n s l o _ (St & raws & E & P) Ks G. split; [exists "", "{"%char, (s +:+ "}"); repeat split; constructor|]. split; [cbn; lia|]. exists (JObj raws).
    split; [cbn [normalize]; f_equal; symmetry; apply obj_of_list_iff; fold nkv; change (fun kv : string * json => (fst kv, normalize (snd kv))) with nkv; rewrite E; auto|].
    intros [|f] r L _; [cbn in L; lia|].
    cbn [String.append parse_value skip_ws]. change (is_ws "{") with false. cbv iota. change (Ascii.eqb "{" dquote) with false. change (Ascii.eqb "{" "[") with false. change (Ascii.eqb "{" "{") with true. cbv iota.
    rewrite sapp_assoc. destruct (starts_skip s ("}" +:+ r) St) as (c & q & Ec & Hc). rewrite Ec. destruct (head_not c Hc) as [_ ->]. rewrite P; [reflexivity|].
    cbn [String.append String.length] in L. rewrite slen_app in L. cbn [String.length] in L. lia.
  - intros n w s w' v B _ (St & L1 & raw & E & P) B'. split; [now apply starts_app|]. exists [raw]. split; [cbn; now rewrite E|]. intros [|f] r L; [lia|].
    rewrite !slen_app in L. rewrite !sapp_assoc. cbn [parse_elems]. rewrite (value_blank f _ w _ B), P; [|lia|apply delim_blank; [exact B'|reflexivity]].
    rewrite (skip_blank w' _ B'). reflexivity.
  - intros n w s w' v q l B _ (St & L1 & raw & E & P) B' _ (_ & raws & E2 & P2). split; [now apply starts_app|]. exists (raw :: raws). split; [cbn; now rewrite E, E2|]. intros [|f] r L; [lia|].
    rewrite !slen_app in L. cbn [String.length] in L. rewrite !sapp_assoc. cbn [parse_elems]. rewrite (value_blank f _ w _ B), P; [|lia|apply delim_blank; [exact B'|reflexivity]].
    rewrite (skip_blank w' _ B'). cbn [String.append skip_ws]. change (is_ws ",") with false. cbv iota. change (Ascii.eqb "," "]") with false. change (Ascii.eqb "," ",") with true. cbv iota.
    change (String "]" r) with ("]" +:+ r). rewrite P2; [reflexivity|lia].
  - intros n w lit k w1 w2 s v w' B Lt B1 B2 _ (St & L1 & raw & E & P) B'. destruct (literal_parse lit k Lt) as (rest & -> & PL).
    split; [apply starts_app; [exact B|]; exists "", dquote, rest; repeat split; constructor|]. exists [(k, raw)]. split; [cbn; unfold nkv; cbn; now rewrite E|]. intros [|f] r L; [lia|].
    rewrite !slen_app in L. cbn [String.length] in L. rewrite !sapp_assoc. cbn [parse_members]. rewrite (skip_blank w _ B). cbn [String.append skip_ws]. change (is_ws dquote) with false. cbv iota.
    change (Ascii.eqb dquote dquote) with true. cbv iota. rewrite PL, (skip_blank w1 _ B1). cbn [String.append skip_ws]. change (is_ws ":") with false. cbv iota. change (Ascii.eqb ":" ":") with true. cbv iota.
    rewrite (value_blank f _ w2 _ B2), P; [|lia|apply delim_blank; [exact B'|reflexivity]]. rewrite (skip_blank w' _ B'). reflexivity.
  - intros n w lit k w1 w2 s v w' q l B Lt B1 B2 _ (St & L1 & raw & E & P) B' _ (_ & raws & E2 & P2). destruct (literal_parse lit k Lt) as (rest & -> & PL).
    split; [apply starts_app; [exact B|]; exists "", dquote, rest; repeat split; constructor|]. exists ((k, raw) :: raws). split; [cbn [map]; unfold nkv at 1; cbn [fst snd]; now rewrite E, E2|]. intros [|f] r L; [lia|].
    rewrite !slen_app in L. cbn [String.length] in L. rewrite !sapp_assoc. cbn [parse_members]. rewrite (skip_blank w _ B). cbn [String.append skip_ws]. change (is_ws dquote) with false. cbv iota.
    change (Ascii.eqb dquote dquote) with true. cbv iota. rewrite PL, (skip_blank w1 _ B1). cbn [String.append skip_ws]. change (is_ws ":") with false. cbv iota. change (Ascii.eqb ":" ":") with true. cbv iota.
    rewrite (value_blank f _ w2 _ B2), P; [|lia|apply delim_blank; [exact B'|reflexivity]]. rewrite (skip_blank w' _ B'). cbn [String.append skip_ws]. change (is_ws ",") with false. cbv iota.
    change (Ascii.eqb "," "}") with false. change (Ascii.eqb "," ",") with true. cbv iota. change (String "}" r) with ("}" +:+ r). rewrite P2; [reflexivity|lia].
Qed.

(* ------------------------------------------------------------ the theorems *)
Lemma reads n s v : json_text n s v -> exists raw, normalize raw = v /\ forall f, 2 * String.length s <= f -> exists r, parse_value f (S n) s = Some (raw, r) /\ skip_ws r = "".
Proof.
  intros (w & t & w' & -> & B & B' & D). destruct (complete_all n t v D) as (_ & L & raw & E & P). exists raw. split; [exact E|]. intros f Lf. exists w'.
  rewrite (value_blank f _ w _ B). rewrite !slen_app in Lf. rewrite P; [|lia|rewrite <- (sapp_nil_r w'); apply delim_blank; [exact B'|reflexivity]].
  split; [reflexivity|]. rewrite <- (sapp_nil_r w'), (skip_blank w' _ B'). reflexivity.
Qed.
(** C95: The JSON text readers accept exactly the texts of RFC 8259 with at most 127 levels of arrays and objects, and return what the text denotes: with a name given more than once, the last value counts. *)
Lemma c95_grammar_pf : forall s v, json_of_text s = Some v <-> json_text 127 s v.
Proof.
  intros s v. unfold json_of_text, parse_raw. split.
  - destruct (parse_value (2 * String.length s + 2) 128 s) as [[raw r]|] eqn:P; [|discriminate]. destruct (skip_ws r) as [|c q] eqn:Er; [|discriminate]. cbn [option_map].
    intros H. injection H as <-. apply (proj1 (sound _)) in P as (w & t & B & -> & D). destruct (skip_split r) as (w' & B' & E & _). rewrite Er, sapp_nil_r in E. subst r.
    exists w, t, w'. auto.
  - intros H. destruct (reads 127 s v H) as (raw & E & P). destruct (P (2 * String.length s + 2)) as (r & -> & ->); [lia|]. cbn [option_map]. now rewrite E.
Qed.
(** C95: No text denotes two values. *)
Lemma c95_unambiguous_pf : forall n m s v v', json_text n s v -> json_text m s v' -> v = v'.
Proof.
  intros n m s v v' H H'. destruct (reads n s v H) as (raw & E & P). destruct (reads m s v' H') as (raw' & E' & P').
  destruct (P (2 * String.length s) (le_n _)) as (r & P1 & _). destruct (P' (2 * String.length s) (le_n _)) as (r' & P1' & _).
  apply (proj1 (PfText.parse_mono _)) with (d' := S (Nat.max n m)) in P1; [|lia]. apply (proj1 (PfText.parse_mono _)) with (d' := S (Nat.max n m)) in P1'; [|lia]. congruence.
Qed.
(** C95: The text readers accept exactly UTF-8 in strings: a byte string passes the check exactly when it is a sequence of encoded scalar values (RFC 3629). *)
Lemma c95_utf8_pf : forall s, utf8_valid s = true <-> exists l, utf8 s l.
Proof. exact utf8_iff. Qed.
Lemma bytes_app a b : map byte (chars (a +:+ b)) = map byte (chars a) ++ map byte (chars b).
Proof. unfold chars. induction a as [|c a IH]; [reflexivity|]. cbn. now rewrite IH. Qed.
Lemma encoded_prefix n m l l' r r' : (n < 1114112)%N -> (m < 1114112)%N -> encoded n l -> encoded m l' -> l ++ r = l' ++ r' -> n = m /\ r = r'.
Proof.
  intros Ln Lm H H'.
  destruct H as [n H|n a b H E Hb|n a b c H E Hb Hc|n a b c d H E Hb Hc Hd]; destruct H' as [m H'|m a' b' H' E' Hb'|m a' b' c' H' E' Hb' Hc'|m a' b' c' d' H' E' Hb' Hc' Hd'];
    cbn [app]; intros X; apply cons_eq in X as [X1 X]; try (exfalso; lia).
  - auto.
  - apply cons_eq in X as [X2 X]. split; [lia|exact X].
  - apply cons_eq in X as [X2 X]. apply cons_eq in X as [X3 X]. split; [lia|exact X].
  - apply cons_eq in X as [X2 X]. apply cons_eq in X as [X3 X]. apply cons_eq in X as [X4 X]. split; [lia|exact X].
Qed.
(** C95: A byte string is UTF-8 in at most one way. *)
Lemma c95_utf8_unique_pf : forall s l l', utf8 s l -> utf8 s l' -> l = l'.
Proof.
  intros s l l' H. revert l'. induction H as [|n s r l [Sc En] _ IH]; intros l' H'.
  - inversion H' as [|m s2 r2 l2 [_ En2] H2 E1 E2]; [reflexivity|]. exfalso. destruct s2; [|discriminate]. inversion En2.
  - inversion H' as [E1 E2|m s2 r2 l2 [Sc2 En2] H2 E1 E2]; subst.
    + exfalso. destruct s; [|discriminate]. inversion En.
    + assert (X : n = m /\ map byte (chars r) = map byte (chars r2)).
      { unfold scalar in *. eapply (encoded_prefix n m); [lia|lia|exact En|exact En2|]. rewrite <- !bytes_app. now rewrite E1. }
      destruct X as [-> X]. apply bytes_inj in X. subst r2. f_equal. now apply IH.
Qed.

Definition sample : string := " { ""a"" : [1, -0, 2.5e+3 , null],""\u00e9\n"":true , ""a"":""\ud83d\uDE00"" } ".
Example c95_sample_ex : json_text 127 sample (JObj [("a", JStr (utf8_encode 128512)); (utf8_encode 233 +:+ s1 (chr 10), JBool true)]).
Proof. apply c95_grammar_pf. vm_compute. reflexivity. Qed.
Example c95_big_ex : json_text 127 "[18446744073709551615, 18446744073709551616, -9223372036854775808, -9223372036854775809]"
  (JArr [JInt 18446744073709551615; JFloat "18446744073709551616"; JInt (-9223372036854775808); JFloat "-9223372036854775809"]).
Proof. apply c95_grammar_pf. vm_compute. reflexivity. Qed.
(** Texts that denote nothing: leading zeros, a bare point, a trailing comma, a control character, a lone surrogate, single quotes, two values. *)
Example c95_rejects_ex : forall s v, In s ["01"; "1."; ".5"; "+1"; "[1,]"; "{""a"":1,}"; "{a:1}"; """" +:+ s1 (chr 10) +:+ """"; """\ud800"""; """\x41"""; "'a'"; "1 2"; "nul"; ""; s1 (chr 239) +:+ s1 (chr 187) +:+ s1 (chr 191) +:+ "1"] ->
  ~ json_text 127 s v.
Proof.
  assert (H : forallb (fun s => match json_of_text s with None => true | Some _ => false end)
     ["01"; "1."; ".5"; "+1"; "[1,]"; "{""a"":1,}"; "{a:1}"; """" +:+ s1 (chr 10) +:+ """"; """\ud800"""; """\x41"""; "'a'"; "1 2"; "nul"; ""; s1 (chr 239) +:+ s1 (chr 187) +:+ s1 (chr 191) +:+ "1"] = true) by (vm_compute; reflexivity).
  intros s v I T. apply c95_grammar_pf in T. rewrite forallb_forall in H. specialize (H s I). cbv beta in H. now rewrite T in H.
Qed.
Example c95_utf8_ex : utf8_valid (s1 (chr 226) +:+ s1 (chr 130) +:+ s1 (chr 172)) = true /\ utf8 (s1 (chr 226) +:+ s1 (chr 130) +:+ s1 (chr 172)) [8364%N].
Proof.
  split; [reflexivity|]. rewrite <- (sapp_nil_r (s1 (chr 226) +:+ s1 (chr 130) +:+ s1 (chr 172))). apply (utf8_cons 8364 _ "" []); [|constructor]. split; [left; lia|]. apply (enc3 8364 2 2 44); lia.
Qed.
