(** Proofs about IPv6 addresses in URLs. *)
From Coq Require Import Lia ZArith.
From Verif Require PfBuilder.
From Verif Require Import Base BaseFacts Utf8 JsonText JsonTextFacts UuidFacts UrlEncoded Url WebUrl WebHost SpecWebUrl SpecHttpUri SpecHost PfWebUrl PfWebReads HostFacts.

(* ------------------------------------------------------------ reading *)
Definition stops (s : string) : Prop := s = "" \/ exists c r, s = String c r /\ hex_val c = None.
Lemma take_in t : forall k v n rest, radix_val 16 v t = Some n -> String.length t <= k -> stops rest ->
  take_hex k v (t +:+ rest) = (n, rest).
Proof.
  induction t as [|c t IH]; intros k v n rest H L S; cbn [String.append].
  - injection H as <-. destruct k; [reflexivity|]. destruct S as [->|(c & r & -> & N)]; [reflexivity|]. cbn [take_hex]. now rewrite N.
  - cbn [String.length] in L. destruct k; [lia|]. cbn [radix_val] in H. cbn [take_hex]. destruct (hex_val c) as [d|]; [|discriminate].
    destruct (d <? 16)%N; [|discriminate]. apply IH; [exact H|lia|exact S].
Qed.
Lemma take_out k : forall v s n rest, take_hex k v s = (n, rest) ->
  exists t, s = t +:+ rest /\ String.length t <= k /\ radix_val 16 v t = Some n.
Proof.
  induction k as [|k IH]; intros v s n rest H; cbn [take_hex] in H.
  { injection H as <- <-. now exists "". }
  destruct s as [|c s]; [injection H as <- <-; exists ""; split; [reflexivity|split; [apply Nat.le_0_l|reflexivity]]|].
  destruct (hex_val c) as [d|] eqn:D.
  - apply IH in H as (t & -> & L & R). exists (String c t). split; [reflexivity|]. split; [cbn; lia|]. cbn [radix_val]. rewrite D.
    apply hex_iff, digit_small, N.ltb_lt in D. now rewrite D.
  - injection H as <- <-. exists "". split; [reflexivity|split; [apply Nat.le_0_l|reflexivity]].
Qed.
Lemma colon_stops r : stops (String ":" r). Proof. right. now exists ":"%char, r. Qed.
Lemma dot_stops r : stops (String "." r). Proof. right. now exists "."%char, r. Qed.
Lemma end_stops : stops "". Proof. now left. Qed.
Lemma group_take t n rest : group t n -> stops rest -> take_hex 4 0 (t +:+ rest) = (n, rest).
Proof. intros (_ & L & H) S. apply take_in; [now apply radix_iff|exact L|exact S]. Qed.
Lemma take_group s n rest : take_hex 4 0 s = (n, rest) -> rest <> s -> exists t, s = t +:+ rest /\ group t n.
Proof.
  intros H N. apply take_out in H as (t & -> & L & R). exists t. split; [reflexivity|]. split; [now intros ->|]. split; [exact L|now apply radix_iff].
Qed.
Lemma group_head t n : group t n -> exists c r d, t = String c r /\ digit c d.
Proof.
  intros (N & _ & H). destruct t as [|c r]; [congruence|]. destruct (number_chars _ _ _ c H) as (d & D & _); [now left|]. now exists c, r, d.
Qed.

Lemma byte_texts_sweep : forallb (fun n => Nat.leb (String.length (dec_N n)) 3) (map N.of_nat (seq 0 256)) = true.
Proof. vm_compute. reflexivity. Qed.
Lemma byte_text n : (n <= 255)%N -> String.length (dec_N n) <= 3.
Proof.
  intros H. apply Nat.leb_le. apply (proj1 (forallb_forall _ _) byte_texts_sweep). apply in_map_iff. exists (N.to_nat n).
  split; [apply N2Nat.id|]. apply in_seq. lia.
Qed.
Lemma dec_byte_iff s n : dec_byte s = Some n <-> s = dec_N n /\ (n <= 255)%N.
Proof.
  unfold dec_byte. split.
  - destruct (int_part_ok s) eqn:I; [|discriminate]. cbn [andb]. destruct (N.leb_spec (digits_val 0 s) 255); [|discriminate]. intros [= <-].
    split; [|assumption]. apply int_canonical in I as [D C]. apply dec_unique; [exact C|now apply digits_number].
  - intros [-> L]. rewrite int_part_ok_dec. destruct (dec_N_spec n) as (_ & _ & -> & _). cbn [andb]. now rewrite (proj2 (N.leb_le _ _) L).
Qed.
Lemma dec_no_dot n : has_char "." (dec_N n) = false.
Proof. apply (has_char_all "." is_digit); [reflexivity|apply dec_N_digits]. Qed.
Lemma quad_iff s l : quad s = Some l <-> exists a b c d, (a <= 255)%N /\ (b <= 255)%N /\ (c <= 255)%N /\ (d <= 255)%N
  /\ s = join "." (map dec_N [a; b; c; d]) /\ l = [256 * a + b; 256 * c + d]%N.
Proof.
  unfold quad. split.
  - pose proof (join_split "." s) as J. destruct (split_all "." s) as [|a [|b [|c [|d [|]]]]]; try discriminate.
    destruct (dec_byte a) as [na|] eqn:A; [|discriminate]. destruct (dec_byte b) as [nb|] eqn:B; [|discriminate].
    destruct (dec_byte c) as [nc|] eqn:C; [|discriminate]. destruct (dec_byte d) as [nd|] eqn:D; [|discriminate]. intros [= <-].
    apply dec_byte_iff in A as [-> A]. apply dec_byte_iff in B as [-> B]. apply dec_byte_iff in C as [-> C]. apply dec_byte_iff in D as [-> D].
    exists na, nb, nc, nd. repeat (split; [assumption|]). split; [|reflexivity]. symmetry. exact J.
  - intros (a & b & c & d & A & B & C & D & -> & ->). change "." with (s1 "."). rewrite split_join; [|discriminate|].
    + cbn [map]. now rewrite (proj2 (dec_byte_iff _ a) (conj eq_refl A)), (proj2 (dec_byte_iff _ b) (conj eq_refl B)),
        (proj2 (dec_byte_iff _ c) (conj eq_refl C)), (proj2 (dec_byte_iff _ d) (conj eq_refl D)).
    + intros x I. apply in_map_iff in I as (n & <- & _). apply dec_no_dot.
Qed.
Lemma digits_hex s : forall a, str_all is_digit s = true -> exists v, radix_val 16 a s = Some v.
Proof.
  induction s as [|c s IH]; intros a H; [eexists; reflexivity|]. cbn [str_all] in H. apply andb_true_iff in H as [C H]. cbn [radix_val].
  apply dec_digit, hex_iff in C. rewrite C. apply hex_iff, digit_small, N.ltb_lt in C. rewrite C. now apply IH.
Qed.
Lemma quad_take s l : quad s = Some l -> exists v r, take_hex 4 0 s = (v, String "." r) /\ String.eqb (String "." r) s = false
  /\ exists c q d, s = String c q /\ digit c d.
Proof.
  intros Q. apply quad_iff in Q as (a & b & c & d & A & _ & _ & _ & -> & _). cbn [map]. rewrite join_cons.
  set (rest := join "." _). destruct (digits_hex (dec_N a) 0 (dec_N_digits a)) as (v & V). exists v, rest. split.
  - apply take_in; [exact V|apply byte_text in A; lia|apply dot_stops].
  - destruct (dec_canonical a) as [Na (Ne & _)]. split.
    + apply String.eqb_neq. intros E. apply (f_equal String.length) in E. rewrite !slen_app in E. cbn [String.length] in E.
      destruct (dec_N a); [congruence|]. cbn [String.length] in E. lia.
    + destruct (dec_N a) as [|x q] eqn:E; [congruence|]. destruct (number_chars _ _ _ x Na) as (y & Y & _); [now left|].
      exists x, (q +:+ "." +:+ rest), y. split; [reflexivity|exact Y].
Qed.

Lemma groups_inv s l : groups s l <-> (exists n, group s n /\ l = [n])
  \/ exists t n s' l', s = t +:+ ":" +:+ s' /\ group t n /\ groups s' l' /\ l = n :: l'.
Proof.
  split.
  - intros [t n G|t n s' l' G H]; [left; eauto|right; eauto 10].
  - intros [(n & G & ->)|(t & n & s' & l' & -> & G & H & ->)]; now constructor.
Qed.
Lemma tail_inv s l : groups_tail s l <-> (exists n, group s n /\ l = [n]) \/ quad s = Some l
  \/ exists t n s' l', s = t +:+ ":" +:+ s' /\ group t n /\ groups_tail s' l' /\ l = n :: l'.
Proof.
  rewrite quad_iff. split.
  - intros [s0 l0 G|a b c d A B C D|t n s' l' G H].
    + apply groups_inv in G as [G|(t & n & s' & l' & -> & G & H & ->)]; [now left|]. right. right. exists t, n, s', l'. eauto using groups_tail.
    + right. left. exists a, b, c, d. auto 10.
    + right. right. eauto 10.
  - intros [(n & G & ->)|[(a & b & c & d & A & B & C & D & -> & ->)|(t & n & s' & l' & -> & G & H & ->)]].
    + apply tail_groups. now constructor.
    + now apply tail_quad.
    + now apply tail_more.
Qed.
Lemma tail_head s l : groups_tail s l -> exists c r d, s = String c r /\ digit c d.
Proof.
  intros H. apply tail_inv in H as [(n & G & _)|[Q|(t & n & s' & l' & -> & G & _)]].
  - now apply group_head in G.
  - apply quad_take in Q as (_ & _ & _ & _ & c & q & d & -> & D). eauto.
  - apply group_head in G as (c & r & d & -> & D). cbn [String.append]. eauto.
Qed.
Lemma tail_length s l : groups_tail s l -> 1 <= length l.
Proof. induction 1 as [s l G| |]; cbn; try lia. destruct G; cbn; lia. Qed.
Lemma digit_colon c d : digit c d -> Ascii.eqb c ":" = false.
Proof. intros D. apply Ascii.eqb_neq. intros ->. unfold digit in D. cbn in D. lia. Qed.
Lemma loop_eq f c r acc k : pieces_loop (S f) (String c r) acc k =
  if Nat.eqb (length acc) 8 then None
  else if Ascii.eqb c ":" then match k with Some _ => None | None => pieces_loop f r (acc ++ [0%N]) (Some (S (length acc))) end
  else let (v, rest) := take_hex 4 0 (String c r) in
    match rest with
    | EmptyString => Some (acc ++ [v], k)
    | String d r' =>
        if Ascii.eqb d "." then
          if String.eqb rest (String c r) || Nat.ltb 6 (length acc) then None
          else match quad (String c r) with Some l => Some (acc ++ l, k) | None => None end
        else if Ascii.eqb d ":" then if String.eqb r' EmptyString then None else pieces_loop f r' (acc ++ [v]) k
        else None
    end.
Proof. reflexivity. Qed.
Lemma quad_length s l : quad s = Some l -> length l = 2.
Proof. intros Q. apply quad_iff in Q as (a & b & c & d & _ & _ & _ & _ & _ & ->). reflexivity. Qed.

(** One step on a text that does not start with a colon. *)
Lemma step_out f s acc k L k' : pieces_loop (S f) s acc k = Some (L, k') -> (forall r, s <> String ":" r) -> s <> "" ->
  length acc <> 8 /\
  ((exists n, group s n /\ L = acc ++ [n] /\ k' = k)
   \/ (exists l, quad s = Some l /\ length acc <= 6 /\ L = acc ++ l /\ k' = k)
   \/ exists t n r, s = t +:+ ":" +:+ r /\ group t n /\ r <> "" /\ pieces_loop f r (acc ++ [n]) k = Some (L, k')).
Proof.
  intros H N E. destruct s as [|c r]; [congruence|]. rewrite loop_eq in H. destruct (Nat.eqb_spec (length acc) 8) as [|A]; [discriminate|].
  split; [exact A|]. destruct (Ascii.eqb_spec c ":") as [->|Nc]; [now destruct (N r)|].
  destruct (take_hex 4 0 (String c r)) as [v rest] eqn:T. destruct rest as [|d r'].
  - injection H as <- <-. left. exists v. destruct (take_group _ _ _ T) as (t & Et & G); [discriminate|]. rewrite sapp_nil_r in Et. subst t. auto.
  - destruct (Ascii.eqb_spec d ".") as [->|Nd].
    + destruct (String.eqb_spec (String "." r') (String c r)); [discriminate|]. cbn [orb] in H. destruct (Nat.ltb_spec 6 (length acc)); [discriminate|].
      destruct (quad (String c r)) as [l|] eqn:Q; [|discriminate]. injection H as <- <-. right. left. exists l. auto.
    + destruct (Ascii.eqb_spec d ":") as [->|Nd']; [|discriminate]. destruct (String.eqb_spec r' ""); [discriminate|].
      right. right. destruct (take_group _ _ _ T) as (t & Et & G); [intros [= X]; congruence|]. exists t, v, r'. auto.
Qed.
Lemma step_one f s acc k n : length acc <= 7 -> group s n -> pieces_loop (S f) s acc k = Some (acc ++ [n], k).
Proof.
  intros A G. pose proof (group_head _ _ G) as (c & r & d & -> & D). rewrite loop_eq. destruct (Nat.eqb_spec (length acc) 8); [lia|].
  rewrite (digit_colon _ _ D). pose proof (group_take _ _ "" G end_stops) as T. rewrite sapp_nil_r in T. now rewrite T.
Qed.
Lemma step_quad f s acc k l : length acc <= 6 -> quad s = Some l -> pieces_loop (S f) s acc k = Some (acc ++ l, k).
Proof.
  intros A Q. pose proof (quad_take _ _ Q) as (v & r' & T & Ne & c & r & d & -> & D). rewrite loop_eq. destruct (Nat.eqb_spec (length acc) 8); [lia|].
  rewrite (digit_colon _ _ D), T, Ne. cbn [orb]. destruct (Nat.ltb_spec 6 (length acc)); [lia|]. rewrite Q. reflexivity.
Qed.
Lemma step_more f t n r acc k : length acc <= 7 -> group t n -> r <> "" ->
  pieces_loop (S f) (t +:+ ":" +:+ r) acc k = pieces_loop f r (acc ++ [n]) k.
Proof.
  intros A G N. pose proof (group_take _ _ (":" +:+ r) G (colon_stops r)) as T. pose proof (group_head _ _ G) as (c & q & d & -> & D).
  cbn [String.append] in *. rewrite loop_eq. destruct (Nat.eqb_spec (length acc) 8); [lia|]. rewrite (digit_colon _ _ D), T. cbn.
  now rewrite eqb_nonempty.
Qed.

Lemma loop_some f : forall s acc k L k', String.length s < f -> length acc <= 8 ->
  pieces_loop f s acc (Some k) = Some (L, k') <->
  k' = Some k /\ exists l, (s = "" /\ l = [] \/ groups_tail s l) /\ L = acc ++ l /\ length acc + length l <= 8.
Proof.
  induction f as [|f IH]; intros s acc k L k' Hf Ha; [lia|]. split.
  - intros H. destruct (string_dec s "") as [->|Ne].
    { injection H as <- <-. split; [reflexivity|]. exists []. rewrite app_nil_r. split; [now left|]. split; [reflexivity|cbn; lia]. }
    assert (N : forall r, s <> String ":" r).
    { intros r ->. rewrite loop_eq in H. destruct (Nat.eqb _ _); discriminate. }
    apply step_out in H as (A & [(n & G & -> & ->)|[(l & Q & B & -> & ->)|(t & n & r & -> & G & Nr & H)]]); [| | |exact N|exact Ne].
    + split; [reflexivity|]. exists [n]. split; [right; apply tail_inv; left; eauto|]. split; [reflexivity|cbn; lia].
    + split; [reflexivity|]. exists l. split; [right; apply tail_inv; auto|]. split; [reflexivity|]. apply quad_length in Q. lia.
    + rewrite !slen_app in Hf. cbn in Hf. apply IH in H as (-> & l & Hl & -> & B); [|lia|rewrite app_length; cbn; lia].
      split; [reflexivity|]. destruct Hl as [[-> _]|Hl]; [congruence|]. exists (n :: l). split; [right; apply tail_inv; right; right; eauto 10|].
      rewrite <- app_assoc. rewrite app_length in B. cbn in B |- *. split; [reflexivity|lia].
  - intros (-> & l & [[-> ->]|Hl] & -> & B); [now rewrite app_nil_r|].
    apply tail_inv in Hl as [(n & G & ->)|[Q|(t & n & s' & l' & -> & G & Hl & ->)]].
    + cbn in B. apply step_one; [lia|exact G].
    + pose proof (quad_length _ _ Q). apply step_quad; [lia|exact Q].
    + cbn in B. rewrite !slen_app in Hf. cbn in Hf. pose proof (tail_length _ _ Hl) as Ll.
      rewrite (step_more _ _ n); [|lia|exact G|destruct (tail_head _ _ Hl) as (c & r & d & -> & _); discriminate].
      refine (proj2 (IH _ _ _ _ _ _ _) _); [lia|rewrite app_length; cbn; lia|]. split; [reflexivity|]. exists l'. split; [now right|].
      rewrite <- app_assoc, app_length. cbn. split; [reflexivity|lia].
Qed.

(** The parts on both sides of the two colons; the first one ends in the colon that was read already. *)
Definition left_part (s b : string) (l : list N) : Prop :=
  s = ":" +:+ b /\ l = [] \/ exists a, s = a +:+ "::" +:+ b /\ groups a l.
Lemma loop_none f : forall s acc L k', String.length s < f -> length acc <= 8 ->
  pieces_loop f s acc None = Some (L, k') <->
  (k' = None /\ exists l, (s = "" /\ l = [] \/ groups_tail s l) /\ L = acc ++ l /\ length acc + length l <= 8)
  \/ exists b la lb, left_part s b la /\ (b = "" /\ lb = [] \/ groups_tail b lb) /\ L = acc ++ la ++ [0%N] ++ lb
       /\ k' = Some (length acc + length la + 1) /\ length acc + length la + length lb <= 7.
Proof.
  induction f as [|f IH]; intros s acc L k' Hf Ha; [lia|]. split.
  - intros H. destruct (string_dec s "") as [->|Ne].
    { injection H as <- <-. left. split; [reflexivity|]. exists []. rewrite app_nil_r. split; [now left|]. split; [reflexivity|cbn; lia]. }
    destruct s as [|c r]; [congruence|]. destruct (Ascii.eqb_spec c ":") as [->|Nc].
    + rewrite loop_eq in H. destruct (Nat.eqb_spec (length acc) 8); [discriminate|]. cbn in Hf. rewrite Ascii.eqb_refl in H.
      apply loop_some in H as (-> & lb & Hb & -> & B); [|lia|rewrite app_length; cbn; lia]. rewrite app_length in B. cbn in B.
      right. exists r, [], lb. split; [now left|]. split; [exact Hb|]. rewrite <- app_assoc. split; [reflexivity|]. cbn. split; [f_equal; lia|lia].
    + apply step_out in H as (A & [(n & G & -> & ->)|[(l & Q & B & -> & ->)|(t & n & r' & E & G & Nr & H)]]); [| | |congruence|exact Ne].
      * left. split; [reflexivity|]. exists [n]. split; [right; apply tail_inv; left; eauto|]. split; [reflexivity|cbn; lia].
      * left. split; [reflexivity|]. exists l. split; [right; apply tail_inv; auto|]. split; [reflexivity|]. apply quad_length in Q. lia.
      * rewrite E in *. clear E. rewrite !slen_app in Hf. cbn in Hf.
        apply IH in H as [(-> & l & Hl & -> & B)|(b & la & lb & Hl & Hb & -> & -> & B)]; [| |lia|rewrite app_length; cbn; lia].
        -- left. split; [reflexivity|]. destruct Hl as [[-> _]|Hl]; [congruence|]. exists (n :: l).
           split; [right; apply tail_inv; right; right; eauto 10|]. rewrite <- app_assoc. rewrite app_length in B. cbn in B |- *. split; [reflexivity|lia].
        -- right. exists b, (n :: la), lb. rewrite app_length in B |- *. cbn in B |- *. split.
           ++ right. destruct Hl as [[-> ->]|(a & -> & Ga)].
              ** exists t. split; [reflexivity|now constructor].
              ** exists (t +:+ ":" +:+ a). split; [now rewrite !sapp_assoc|now constructor].
           ++ split; [exact Hb|]. rewrite <- app_assoc. split; [reflexivity|]. split; [f_equal; lia|lia].
  - intros [(-> & l & [[-> ->]|Hl] & -> & B)|(b & la & lb & Hl & Hb & -> & -> & B)].
    + now rewrite app_nil_r.
    + apply tail_inv in Hl as [(n & G & ->)|[Q|(t & n & s' & l' & -> & G & Hl & ->)]].
      * cbn in B. apply step_one; [lia|exact G].
      * pose proof (quad_length _ _ Q). apply step_quad; [lia|exact Q].
      * cbn in B. rewrite !slen_app in Hf. cbn in Hf. pose proof (tail_length _ _ Hl) as Ll.
        rewrite (step_more _ _ n); [|lia|exact G|destruct (tail_head _ _ Hl) as (c & r & d & -> & _); discriminate].
        refine (proj2 (IH _ _ _ _ _ _) _); [lia|rewrite app_length; cbn; lia|]. left. split; [reflexivity|]. exists l'. split; [now right|].
        rewrite <- app_assoc, app_length. cbn. split; [reflexivity|lia].
    + destruct Hl as [[-> ->]|(a & -> & Ga)].
      * cbn [String.append]. rewrite loop_eq. cbn in B. destruct (Nat.eqb_spec (length acc) 8); [lia|]. rewrite Ascii.eqb_refl. cbn in Hf.
        refine (proj2 (loop_some _ _ _ _ _ _ _ _) _); [lia|rewrite app_length; cbn; lia|]. split; [cbn; f_equal; lia|]. exists lb. split; [exact Hb|].
        rewrite <- app_assoc, app_length. cbn. split; [reflexivity|lia].
      * rewrite !slen_app in Hf. cbn in Hf. apply groups_inv in Ga as [(n & G & ->)|(t & n & s' & l' & -> & G & Ga & ->)].
        -- cbn in B. change (a +:+ "::" +:+ b) with (a +:+ ":" +:+ (":" +:+ b)). rewrite (step_more _ _ n); [|lia|exact G|discriminate].
           destruct G as (Nt & _). destruct a; [congruence|]. cbn in Hf.
           refine (proj2 (IH _ _ _ _ _ _) _); [cbn; lia|rewrite app_length; cbn; lia|]. right. exists b, [], lb. split; [now left|]. split; [exact Hb|].
           rewrite <- app_assoc, app_length. cbn. split; [reflexivity|]. split; [f_equal; lia|lia].
        -- cbn in B. rewrite !slen_app in Hf. cbn in Hf. rewrite !sapp_assoc. rewrite (step_more _ _ n); [|lia|exact G|].
           ++ refine (proj2 (IH _ _ _ _ _ _) _); [rewrite !slen_app; cbn; lia|rewrite app_length; cbn; lia|]. right. exists b, l', lb. split; [right; eauto|]. split; [exact Hb|].
              rewrite <- app_assoc, app_length. cbn. split; [reflexivity|]. split; [f_equal; lia|lia].
           ++ destruct s'; discriminate.
Qed.
Lemma tail_size s l : groups_tail s l -> length l <= String.length s.
Proof.
  assert (A : forall t n, group t n -> 1 <= String.length t). { intros t n (N & _). destruct t; [congruence|cbn; lia]. }
  assert (B : forall s l, groups s l -> length l <= String.length s).
  { induction 1 as [t n G|t n s' l' G H IH]; [apply A in G; cbn; lia|]. rewrite !slen_app. apply A in G. cbn. lia. }
  induction 1 as [s l G|a b c d _ _ _ _|t n s l G H IH].
  - now apply B.
  - cbn [map]. rewrite join_cons, slen_app. cbn [String.append String.length]. rewrite join_cons, slen_app. cbn. lia.
  - rewrite !slen_app. apply A in G. cbn. lia.
Qed.
Lemma tail_colon r l : groups_tail (String ":" r) l -> False.
Proof. intros H. apply tail_head in H as (c & r' & d & [= <- _] & D). apply digit_colon in D. discriminate. Qed.
Lemma groups_colon r l : groups (String ":" r) l -> False.
Proof. intros H. apply (tail_colon r l). now constructor. Qed.
Lemma groups_nonempty l : groups "" l -> False.
Proof. intros H. destruct (tail_head "" l) as (c & r & d & E & _); [now constructor|discriminate]. Qed.

Lemma pieces_iff s l : pieces s = Some l <-> address6 s l.
Proof.
  unfold pieces, address6. destruct (Nat.ltb_spec (String.length s) 2) as [Hs|Hs].
  { split; [discriminate|]. intros [[H L]|(a & b & x & y & -> & _)].
    - apply tail_size in H. lia.
    - rewrite !slen_app in Hs. cbn in Hs. lia. }
  destruct s as [|c [|d r]]; [cbn in Hs; lia|cbn in Hs; lia|]. remember (S (String.length (String c (String d r)))) as f eqn:Ef.
  destruct (Ascii.eqb_spec c ":") as [->|Nc].
  - destruct (Ascii.eqb_spec d ":") as [->|Nd].
    + split.
      * destruct (pieces_loop f r [0%N] (Some 1)) as [[L k']|] eqn:H; [|discriminate].
        apply loop_some in H as (-> & lb & Hb & -> & B); [|subst f; cbn; lia|cbn; lia]. intros [= <-]. right. exists "", r, [], lb.
        split; [reflexivity|]. split; [now left|]. split; [exact Hb|]. cbn [length] in B |- *. split; [lia|].
        cbn [app firstn skipn length Nat.add] in *. replace (8 - 0 - length lb) with (S (7 - length lb)) by lia. reflexivity.
      * intros [[H _]|(a & b & x & y & E & Ha & Hb & B & ->)]; [now apply tail_colon in H|].
        assert (a = "" /\ x = []) as [-> ->].
        { destruct Ha as [Ha|Ha]; [exact Ha|]. destruct a as [|q a]; [now apply groups_nonempty in Ha|]. injection E as <- _. now apply groups_colon in Ha. }
        injection E as ->. cbn [length] in *.
        assert (H : pieces_loop f b [0%N] (Some 1) = Some ([0%N] ++ y, Some 1)).
        { apply loop_some; [subst f; cbn; lia|cbn; lia|]. split; [reflexivity|]. exists y. split; [exact Hb|]. split; [reflexivity|cbn; lia]. }
        rewrite H. cbn [app firstn skipn length Nat.add]. replace (8 - 0 - length y) with (S (7 - length y)) by lia. reflexivity.
    + split; [discriminate|]. intros [[H _]|(a & b & x & y & E & Ha & Hb & B & ->)]; [now apply tail_colon in H|].
      destruct a as [|q a]; [cbn in E; congruence|]. destruct Ha as [[Ha _]|Ha]; [discriminate|]. injection E as <- _. now apply groups_colon in Ha.
  - assert (Ne : String c (String d r) <> "") by discriminate. set (s := String c (String d r)) in *.
    assert (Nh : forall q, s <> String ":" q) by (intros q [= X _]; congruence).
    split.
    + destruct (pieces_loop f s [] None) as [[L k']|] eqn:H; [|discriminate].
      apply loop_none in H as [(-> & x & Hx & -> & B)|(b & la & lb & Hl & Hb & -> & -> & B)]; [| |subst f; lia|cbn; lia].
      * destruct (Nat.eqb_spec (length ([] ++ x)) 8) as [E|]; [|discriminate]. intros [= <-]. left. destruct Hx as [[X _]|Hx]; [congruence|]. auto.
      * intros [= <-]. right. destruct Hl as [[X _]|(a & X & Ga)]; [now destruct (Nh b)|]. exists a, b, la, lb. split; [exact X|]. split; [now right|].
        split; [exact Hb|]. cbn [length Nat.add app] in B |- *. split; [lia|].
        rewrite !app_length. cbn [length]. replace (length la + 1) with (length (la ++ [0%N])) by (rewrite app_length; reflexivity).
        change (la ++ 0%N :: lb) with (la ++ [0%N] ++ lb). rewrite (app_assoc la).
        rewrite firstn_app, skipn_app, firstn_all, skipn_all, Nat.sub_diag. cbn [firstn skipn app]. rewrite app_nil_r, <- app_assoc. f_equal.
        rewrite app_assoc. f_equal. cbn [app]. replace (8 - length la - length lb) with (S (8 - (length la + S (length lb)))) by lia. reflexivity.
    + intros [[H L]|(a & b & x & y & E & Ha & Hb & B & ->)].
      * assert (P : pieces_loop f s [] None = Some ([] ++ l, None)).
        { apply loop_none; [subst f; lia|cbn; lia|]. left. split; [reflexivity|]. exists l. split; [now right|]. split; [reflexivity|cbn; lia]. }
        rewrite P. cbn [app]. now rewrite L.
      * assert (P : pieces_loop f s [] None = Some ([] ++ x ++ [0%N] ++ y, Some (0 + length x + 1))).
        { apply loop_none; [subst f; lia|cbn; lia|]. right. exists b, x, y. split.
          - right. exists a. split; [exact E|]. destruct Ha as [[-> _]|Ha]; [|exact Ha]. now destruct (Nh (":" +:+ b)).
          - split; [exact Hb|]. split; [reflexivity|]. split; [reflexivity|cbn; lia]. }
        rewrite P. clear P. cbn [app Nat.add]. rewrite !app_length. cbn [length].
        replace (length x + 1) with (length (x ++ [0%N])) by (rewrite app_length; reflexivity).
        change (x ++ 0%N :: y) with (x ++ [0%N] ++ y). rewrite (app_assoc x).
        rewrite firstn_app, skipn_app, firstn_all, skipn_all, Nat.sub_diag. cbn [firstn skipn app]. rewrite app_nil_r, <- app_assoc. f_equal.
        f_equal. rewrite app_assoc. f_equal. replace (8 - length x - length y) with (S (8 - (length x + S (length y)))) by lia. reflexivity.
Qed.

(* ------------------------------------------------------------ printing *)
Lemma drop_spec s : s <> "" -> exists z, s = z +:+ drop_zeros s /\ str_all (Ascii.eqb "0") z = true /\ drop_zeros s <> ""
  /\ (forall c r, drop_zeros s = String "0" (String c r) -> False).
Proof.
  induction s as [|c s IH]; [congruence|]. intros _. destruct s as [|d s].
  - exists "". repeat split; [discriminate|]. intros x r. cbn. discriminate.
  - change (drop_zeros (String c (String d s))) with (if Ascii.eqb c "0" then drop_zeros (String d s) else String c (String d s)).
    destruct (Ascii.eqb_spec c "0") as [->|N].
    + destruct IH as (z & E & Z & Ne & H); [discriminate|]. exists (String "0" z). split; [cbn [String.append]; f_equal; exact E|]. auto.
    + exists "". split; [reflexivity|]. split; [reflexivity|]. split; [discriminate|]. intros x r [= X _ _]. congruence.
Qed.
Lemma zero_prefix z t : str_all (Ascii.eqb "0") z = true -> radix_val 16 0 (z +:+ t) = radix_val 16 0 t.
Proof.
  induction z as [|c z IH]; [reflexivity|]. intros H. apply andb_true_iff in H as [C Z]. destruct (Ascii.eqb_spec "0" c) as [<-|]; [|discriminate].
  cbn. now apply IH.
Qed.
Lemma hexdig_small_sweep : forallb (fun d => negb ((65 <=? byte (hexdig d))%N && (byte (hexdig d) <=? 70)%N))
  [0;1;2;3;4;5;6;7;8;9;10;11;12;13;14;15]%N = true.
Proof. vm_compute. reflexivity. Qed.
Lemma hexdig_lower d : (d < 16)%N -> ~ (65 <= byte (hexdig d) <= 70)%N.
Proof.
  intros H. assert (E := proj1 (forallb_forall _ _) hexdig_small_sweep d (PfBuilder.small_in d H)). cbn beta in E. apply negb_true_iff, andb_false_iff in E.
  rewrite !N.leb_gt in E. lia.
Qed.
Lemma piece_shortest n : (n < 65536)%N -> shortest (hex_piece n) n.
Proof.
  intros H. unfold hex_piece. set (s := String _ _).
  assert (D1 : (n / 4096 < 16)%N) by (apply N.div_lt_upper_bound; lia).
  assert (D2 : (n / 256 mod 16 < 16)%N) by (apply N.mod_lt; lia).
  assert (D3 : (n / 16 mod 16 < 16)%N) by (apply N.mod_lt; lia).
  assert (D4 : (n mod 16 < 16)%N) by (apply N.mod_lt; lia).
  assert (V : radix_val 16 0 s = Some n).
  { subst s. unfold s1. cbn [radix_val]. rewrite !hexdig_val by assumption. rewrite !(proj2 (N.ltb_lt _ _)) by assumption. f_equal.
    zify. Z.to_euclidean_division_equations. lia. }
  assert (U : forall c, In c (chars s) -> ~ (65 <= byte c <= 70)%N).
  { intros c. subst s. unfold s1. cbn [chars In list_ascii_of_string]. intros [<-|[<-|[<-|[<-|[]]]]]; now apply hexdig_lower. }
  assert (L : String.length s = 4) by reflexivity. assert (Ne : s <> "") by discriminate. clearbody s.
  destruct (drop_spec s Ne) as (z & E & Z & Nd & F). split; [|split].
  - split; [exact Nd|]. split.
    + rewrite E, slen_app in L. lia.
    + apply radix_iff. rewrite <- (zero_prefix z) by exact Z. now rewrite <- E.
  - intros c I. apply U. rewrite E. rewrite in_chars, has_char_app. apply in_chars in I. rewrite I. apply orb_true_r.
  - exact F.
Qed.
Lemma shortest_canonical t n : shortest t n -> canonical t /\ number 16 t n.
Proof. intros ((N & _ & H) & U & F). split; [|exact H]. now split. Qed.
Lemma shortest_unique t n : shortest t n -> t = hex_piece n.
Proof.
  intros S. assert (B : (n < 65536)%N). { destruct S as ((_ & L & H) & _). apply number_bound in H. eapply N.lt_le_trans; [exact H|].
    change 65536%N with (16 ^ N.of_nat 4)%N. apply N.pow_le_mono_r; [lia|]. lia. }
  pose proof (piece_shortest n B) as P. apply shortest_canonical in S as [C1 H1]. apply shortest_canonical in P as [C2 H2].
  apply (number_unique 16 _ _ n); auto. lia.
Qed.
Lemma shortest_all ts l : Forall (fun n => (n < 65536)%N) l -> Forall2 shortest ts l <-> ts = map hex_piece l.
Proof.
  intros B. split.
  - induction 1 as [|t n ts l S _ IH]; [reflexivity|]. inversion B; subst. cbn. f_equal; [now apply shortest_unique|auto].
  - intros ->. induction B as [|n l N _ IH]; [constructor|]. cbn. constructor; [now apply piece_shortest|exact IH].
Qed.

(** Runs of zeros by position. *)
Definition runz (q : list N) (s n : nat) : Prop := forall j, s <= j < s + n -> nth_error q j = Some 0%N.
Definition best (q : list N) (e : nat) (longest : option (nat * nat)) : Prop :=
  match longest with
  | None => forall a n, 1 <= n -> a + n <= e -> ~ runz q a n
  | Some (a, n) => 1 <= n /\ runz q a n /\ a + n <= e
      /\ forall a' n', 1 <= n' -> a' + n' <= e -> runz q a' n' -> n' <= n /\ (n' = n -> a <= a')
  end.
Definition open_run (q : list N) (i : nat) (start : option nat) : Prop :=
  match start with
  | None => True
  | Some s => s < i /\ runz q s (i - s) /\ (s = 0 \/ nth_error q (s - 1) <> Some 0%N)
  end.
Definition upto (i : nat) (start : option nat) : nat := match start with None => i | Some s => s end.
Lemma finish_best q i start longest : open_run q i start -> best q (upto i start) longest -> best q i (finish_run i start longest).
Proof.
  unfold finish_run. destruct start as [s|]; [|intros _ H; exact H]. cbn [open_run upto]. intros (Hs & R & P) H.
  assert (Far : forall a n, 1 <= n -> a + n <= i -> runz q a n -> a + n <= s \/ s <= a).
  { intros a n N1 L Q. destruct (Nat.le_gt_cases (a + n) s); [now left|]. right. destruct (Nat.le_gt_cases s a); [assumption|].
    destruct P as [->|P]; [lia|]. destruct P. apply Q. lia. }
  destruct longest as [[a n]|]; cbn [best] in H |- *.
  - destruct H as (N1 & Q & L & M). destruct (Nat.ltb_spec n (i - s)); cbn [best].
    + split; [lia|]. split; [exact R|]. split; [lia|]. intros a' n' N' L' Q'. destruct (Far a' n' N' L' Q') as [F|F].
      * destruct (M a' n' N' F Q'). lia.
      * split; [lia|]. intros ->. lia.
    + split; [exact N1|]. split; [exact Q|]. split; [lia|]. intros a' n' N' L' Q'. destruct (Far a' n' N' L' Q') as [F|F].
      * exact (M a' n' N' F Q').
      * split; [lia|]. intros ->. lia.
  - split; [lia|]. split; [exact R|]. split; [lia|]. intros a' n' N' L' Q'. destruct (Far a' n' N' L' Q') as [F|F].
    + now destruct (H a' n' N' F).
    + split; lia.
Qed.
Lemma best_next q i longest : nth_error q i <> Some 0%N -> best q i longest -> best q (S i) longest.
Proof.
  intros Z. assert (F : forall a n, 1 <= n -> a + n <= S i -> runz q a n -> a + n <= i).
  { intros a n N1 L Q. destruct (Nat.le_gt_cases (a + n) i); [assumption|]. destruct Z. apply Q. lia. }
  destruct longest as [[a n]|]; cbn [best].
  - intros (N1 & Q & L & M). split; [exact N1|]. split; [exact Q|]. split; [lia|]. intros a' n' N' L' Q'. apply M; auto.
  - intros H a n N1 L Q. apply (H a n N1); auto.
Qed.
Lemma zero_runs_best q l : forall pre i start longest, q = pre ++ l -> length pre = i -> open_run q i start ->
  (start = None -> i = 0 \/ nth_error q (i - 1) <> Some 0%N) -> best q (upto i start) longest ->
  best q (length q) (zero_runs i start longest l).
Proof.
  induction l as [|x l IH]; intros pre i start longest E Li O C B; cbn [zero_runs].
  - rewrite app_nil_r in E. subst pre. rewrite Li. now apply finish_best.
  - assert (X : nth_error q i = Some x). { subst q i. rewrite nth_error_app2, Nat.sub_diag by lia. reflexivity. }
    assert (E' : q = (pre ++ [x]) ++ l) by now rewrite <- app_assoc.
    assert (L' : length (pre ++ [x]) = S i) by (rewrite app_length; cbn; lia).
    destruct (N.eqb_spec x 0) as [->|Nx].
    + apply (IH (pre ++ [0%N])); [exact E'|exact L'| | |].
      * destruct start as [s|]; cbn [open_run] in O |- *.
        -- destruct O as (Hs & R & P). split; [lia|]. split; [|exact P]. intros j Hj. destruct (Nat.eq_dec j i) as [->|]; [exact X|]. apply R. lia.
        -- split; [lia|]. split; [|auto]. intros j Hj. replace j with i by lia. exact X.
      * destruct start; discriminate.
      * destruct start as [s|]; exact B.
    + apply (IH (pre ++ [x])); [exact E'|exact L'|exact I| |].
      * intros _. right. cbn. rewrite Nat.sub_0_r, X. congruence.
      * cbn [upto]. apply best_next; [congruence|]. now apply finish_best.
Qed.
Lemma longest_best q : best q (length q) (zero_runs 0 None None q).
Proof.
  apply (zero_runs_best q q []); [reflexivity|reflexivity|exact I|auto|]. cbn. intros a n N1 L. lia.
Qed.

Lemma zeros_runz q a run b : zeros q a run b -> runz q (length a) (length run) /\ length a + length run <= length q.
Proof.
  intros [-> Z]. split.
  - intros j Hj. rewrite nth_error_app2, nth_error_app1 by lia. destruct (nth_error run (j - length a)) as [x|] eqn:E.
    + apply nth_error_In in E. now rewrite (Z x E).
    + apply nth_error_None in E. lia.
  - rewrite !app_length. lia.
Qed.
Lemma nth_skipn {A} (q : list A) s j : nth_error (skipn s q) j = nth_error q (s + j).
Proof. revert q. induction s as [|s IH]; intros q; [reflexivity|]. destruct q; [now destruct j|]. apply IH. Qed.
Lemma nth_firstn {A} (q : list A) n j : j < n -> nth_error (firstn n q) j = nth_error q j.
Proof. revert q j. induction n as [|n IH]; intros q j H; [lia|]. destruct q; [now destruct j|]. destruct j; [reflexivity|]. cbn. apply IH. lia. Qed.
Lemma skip_skip {A} (q : list A) s n : skipn n (skipn s q) = skipn (s + n) q.
Proof. revert q. induction s as [|s IH]; intros q; [reflexivity|]. destruct q; [now rewrite !skipn_nil|]. apply IH. Qed.
Lemma runz_zeros q s n : runz q s n -> s + n <= length q ->
  zeros q (firstn s q) (firstn n (skipn s q)) (skipn (s + n) q) /\ length (firstn s q) = s /\ length (firstn n (skipn s q)) = n.
Proof.
  intros R L. split; [split|].
  - rewrite <- (skip_skip q s n). now rewrite !firstn_skipn.
  - intros x I. apply In_nth_error in I as (j & J). assert (j < n).
    { assert (j < length (firstn n (skipn s q))) by (apply nth_error_Some; congruence). rewrite firstn_length in H. lia. }
    rewrite nth_firstn, nth_skipn in J by assumption. rewrite R in J by lia. congruence.
  - rewrite !firstn_length, skipn_length. lia.
Qed.

Lemma print_iff l t : Forall (fun n => (n < 65536)%N) l -> printed6 l t <-> t = print_pieces l.
Proof.
  intros B. unfold print_pieces, longest_zeros. pose proof (longest_best l) as H.
  assert (Sub : forall a b c, l = a ++ b ++ c -> Forall (fun n => (n < 65536)%N) a /\ Forall (fun n => (n < 65536)%N) c).
  { intros a b c ->. apply Forall_app in B as [Ba B]. apply Forall_app in B as [_ Bc]. auto. }
  assert (None_case : (forall a n, a + n <= length l -> runz l a n -> n <= 1) -> printed6 l t <-> t = join ":" (map hex_piece l)).
  { intros M. split.
    - intros [(_ & ts & F & ->)|(a & run & b & ta & tb & Z & L & _)].
      + apply (shortest_all ts l B) in F. now subst ts.
      + apply zeros_runz in Z as [R K]. apply M in R; lia.
    - intros ->. left. split.
      + intros a run b Z. apply zeros_runz in Z as [R K]. exact (M _ _ K R).
      + exists (map hex_piece l). split; [|reflexivity]. now apply shortest_all. }
  destruct (zero_runs 0 None None l) as [[s n]|]; cbn [best] in H.
  - destruct H as (N1 & R & L & M). destruct (Nat.ltb_spec n 2) as [N2|N2].
    + apply None_case. intros a k K Q. destruct (Nat.le_gt_cases k 1); [assumption|]. destruct (M a k); try lia. exact Q.
    + clear None_case. destruct (runz_zeros l s n R L) as (Z & La & Lr). split.
      * intros [(X & _)|(a & run & b & ta & tb & Z' & L' & M' & Fa & Fb & ->)].
        { apply X in Z. lia. }
        destruct (M' _ _ _ Z) as [A1 A2]. destruct (zeros_runz _ _ _ _ Z') as [R' K'].
        destruct (M (length a) (length run)) as [B1 B2]; [lia|exact K'|exact R'|].
        assert (length run = n) by lia. assert (length a = s) by lia.
        destruct Z' as [El _]. destruct (Sub _ _ _ El) as [Ba Bb]. apply (shortest_all _ _ Ba) in Fa. apply (shortest_all _ _ Bb) in Fb.
        subst ta tb. assert (E1 : firstn s l = a). { rewrite El. subst s. rewrite firstn_app, firstn_all, Nat.sub_diag. cbn. apply app_nil_r. }
        assert (E2 : skipn (s + n) l = b).
        { rewrite El, app_assoc. subst s n. rewrite <- app_length. rewrite skipn_app, skipn_all, Nat.sub_diag. reflexivity. }
        now rewrite E1, E2.
      * intros ->. right. exists (firstn s l), (firstn n (skipn s l)), (skipn (s + n) l), (map hex_piece (firstn s l)), (map hex_piece (skipn (s + n) l)).
        split; [exact Z|]. split; [lia|]. split.
        -- intros a' run' b' Z'. apply zeros_runz in Z' as [R' K']. rewrite La, Lr. destruct (length run') as [|k]; [lia|]. apply M; [lia|exact K'|exact R'].
        -- destruct (Sub _ _ _ (proj1 Z)) as [Ba Bb]. split; [now apply shortest_all|]. split; [now apply shortest_all|reflexivity].
  - apply None_case. intros a [|n] L Q; [lia|]. destruct (H a (S n)); [lia|exact L|exact Q].
Qed.
Lemma group_bound t n : group t n -> (n < 65536)%N.
Proof.
  intros (_ & L & H). apply number_bound in H. eapply N.lt_le_trans; [exact H|]. change 65536%N with (16 ^ N.of_nat 4)%N.
  apply N.pow_le_mono_r; [lia|]. lia.
Qed.
Lemma groups_bound s l : groups s l -> Forall (fun n => (n < 65536)%N) l.
Proof. induction 1 as [t n G|t n s l G _ IH]; repeat constructor; try exact IH; now apply (group_bound t). Qed.
Lemma tail_bound s l : groups_tail s l -> Forall (fun n => (n < 65536)%N) l.
Proof.
  induction 1 as [s l G|a b c d A B C D|t n s l G _ IH]; [now apply (groups_bound s)| |].
  - repeat constructor; lia.
  - constructor; [now apply (group_bound t)|exact IH].
Qed.
Lemma address_bound s l : address6 s l -> Forall (fun n => (n < 65536)%N) l /\ length l = 8.
Proof.
  intros [[H L]|(a & b & x & y & -> & Ha & Hb & B & ->)]; [split; [now apply tail_bound in H|exact L]|]. split.
  - apply Forall_app. split; [|apply Forall_app; split].
    + destruct Ha as [[_ ->]|Ha]; [constructor|now apply groups_bound in Ha].
    + apply Forall_forall. intros n I. apply repeat_spec in I. subst. lia.
    + destruct Hb as [[_ ->]|Hb]; [constructor|now apply tail_bound in Hb].
  - rewrite !app_length, repeat_length. lia.
Qed.
Lemma join_groups ts l : Forall2 shortest ts l -> ts = [] /\ l = [] \/ groups (join ":" ts) l.
Proof.
  induction 1 as [|t n ts l S H IH]; [now left|]. right. destruct IH as [[-> ->]|IH].
  - constructor. exact (proj1 S).
  - destruct ts as [|t' ts]; [now apply groups_nonempty in IH|]. rewrite join_cons. constructor; [exact (proj1 S)|exact IH].
Qed.
Lemma run_repeat (l : list N) : (forall n, In n l -> n = 0%N) -> l = repeat 0%N (length l).
Proof.
  induction l as [|x l IH]; intros H; [reflexivity|]. cbn. rewrite (H x) by now left. f_equal. apply IH. intros n I. apply H. now right.
Qed.
Lemma printed_address l t : length l = 8 -> printed6 l t -> address6 t l.
Proof.
  intros L [(_ & ts & F & ->)|(a & run & b & ta & tb & [-> Z] & Lr & _ & Fa & Fb & ->)].
  - left. split; [|exact L]. apply tail_groups. apply join_groups in F as [[_ ->]|F]; [discriminate|exact F].
  - right. exists (join ":" ta), (join ":" tb), a, b. split; [reflexivity|]. rewrite !app_length in L. split.
    { apply join_groups in Fa as [[-> ->]|Fa]; auto. }
    split. { apply join_groups in Fb as [[-> ->]|Fb]; [auto|]. right. now apply tail_groups. }
    split; [lia|]. rewrite (run_repeat run Z) at 1. replace (8 - length a - length b) with (length run) by lia. reflexivity.
Qed.

(* ------------------------------------------------------------ theorems *)
(** C115: between the brackets of a URL, exactly the IPv6 addresses are read, and they are printed in the one form of RFC
    5952. *)
Lemma c115_ipv6_pf :
  forall s t, web_ipv6 s = Some t <-> exists l, address6 s l /\ printed6 l t.
Proof.
  intros s t. unfold web_ipv6. split.
  - destruct (pieces s) as [l|] eqn:P; [|discriminate]. intros [= <-]. apply pieces_iff in P. exists l. split; [exact P|].
    apply print_iff; [now apply address_bound in P|reflexivity].
  - intros (l & A & Q). pose proof (proj1 (address_bound _ _ A)) as B. apply pieces_iff in A. rewrite A. cbn. f_equal. symmetry. now apply print_iff.
Qed.
Example c115_ipv6_ex :
  map web_ipv6 ["::1"; "2001:DB8:0:0:1::"; "0:0:1:0:0:0:0:1"; "1:0:2:0:3:0:4:0"; "::ffff:192.0.2.1"; "1:2:3:4:5:6:7:8"; "::"]
    = [Some "::1"; Some "2001:db8:0:0:1::"; Some "0:0:1::1"; Some "1:0:2:0:3:0:4:0"; Some "::ffff:c000:201"; Some "1:2:3:4:5:6:7:8"; Some "::"]
  /\ map web_ipv6 [""; ":"; ":::"; "1::2::3"; "1:2:3:4:5:6:7"; "1:2:3:4:5:6:7:8:9"; "12345::"; "::1.2.3.256"; "::1.2.3"; "::01.2.3.4"; "1:"; "::g"]
    = repeat None 12.
Proof. vm_compute. split; reflexivity. Qed.

(** C115: two texts name the same IPv6 address exactly if they are printed alike, and what is printed names that address
    and is not changed again. *)
Lemma c115_ipv6_same_pf :
  forall s s' l l' t t', address6 s l -> address6 s' l' -> web_ipv6 s = Some t -> web_ipv6 s' = Some t' ->
    (l = l' <-> t = t') /\ address6 t l /\ web_ipv6 t = Some t.
Proof.
  intros s s' l l' t t' A A' W W'.
  assert (R : forall s l t, address6 s l -> web_ipv6 s = Some t -> printed6 l t).
  { intros x m y X Y. apply c115_ipv6_pf in Y as (m' & X' & Y). apply pieces_iff in X. apply pieces_iff in X'. now replace m with m' by congruence. }
  pose proof (R _ _ _ A W) as P. pose proof (R _ _ _ A' W') as P'. destruct (address_bound _ _ A) as [B L]. destruct (address_bound _ _ A') as [B' L'].
  pose proof (printed_address l t L P) as At. split; [split|].
  - intros <-. apply (print_iff l t B) in P. apply (print_iff l t' B) in P'. congruence.
  - intros <-. pose proof (printed_address l' t L' P') as At'. apply pieces_iff in At. apply pieces_iff in At'. congruence.
  - split; [exact At|]. apply c115_ipv6_pf. eauto.
Qed.
Example c115_ipv6_same_ex :
  pieces "::ffff:192.0.2.1" = Some [0; 0; 0; 0; 0; 65535; 49152; 513]%N /\ pieces "0:0::FFFF:c000:0201" = pieces "::ffff:192.0.2.1"
  /\ web_ipv6 "0:0::FFFF:c000:0201" = Some "::ffff:c000:201" /\ web_ipv6 "::ffff:192.0.2.1" = Some "::ffff:c000:201".
Proof. vm_compute. repeat split; reflexivity. Qed.

Lemma shortest_chars t n c : shortest t n -> In c (chars t) -> (48 <= byte c <= 57)%N \/ (97 <= byte c <= 102)%N.
Proof.
  intros ((_ & _ & H) & U & _) I. destruct (number_chars _ _ _ c H I) as (d & D & _). specialize (U c I). unfold digit in D. lia.
Qed.
Lemma join_chars ts l c : Forall2 shortest ts l -> In c (chars (join ":" ts)) -> c = ":"%char \/ (48 <= byte c <= 57)%N \/ (97 <= byte c <= 102)%N.
Proof.
  induction 1 as [|t n ts l S H IH]; [intros []|]. destruct ts as [|t' ts].
  - intros I. right. exact (shortest_chars t n c S I).
  - rewrite join_cons, in_chars, !has_char_app, !orb_true_iff, <- !in_chars. intros [I|[I|I]]; [right; exact (shortest_chars t n c S I)| |auto].
    destruct I as [<-|[]]. now left.
Qed.
Lemma shortest_count t n : shortest t n -> count_occ ascii_dec (chars t) ":"%char = 0.
Proof. intros S. apply count_occ_not_In. intros I. pose proof (shortest_chars t n _ S I) as H. cbn in H. lia. Qed.
Lemma chars_app a b : chars (a +:+ b) = chars a ++ chars b.
Proof. unfold chars. induction a as [|c a IH]; [reflexivity|]. cbn. now rewrite IH. Qed.
Lemma join_count ts l : Forall2 shortest ts l -> count_occ ascii_dec (chars (join ":" ts)) ":"%char = length l - 1.
Proof.
  induction 1 as [|t n ts l S H IH]; [reflexivity|]. destruct ts as [|t' ts].
  - inversion H; subst. cbn [join length]. now rewrite (shortest_count t n S).
  - rewrite join_cons, !chars_app, !count_occ_app, IH, (shortest_count t n S). inversion H; subst. cbn. lia.
Qed.
Lemma ipv6_ok : (forall s a, web_ipv6 s = Some a -> web_ipv6 a = Some a
    /\ forall c, In c (chars a) -> c = ":"%char \/ (48 <= byte c <= 57)%N \/ (97 <= byte c <= 102)%N)
  /\ eight_groups web_ipv6.
Proof.
  split.
  - intros s a W. apply c115_ipv6_pf in W as (l & A & P). destruct (address_bound _ _ A) as [B L]. split.
    + apply c115_ipv6_pf. exists l. split; [now apply printed_address|exact P].
    + intros c I. destruct P as [(_ & ts & F & ->)|(x & run & y & tx & ty & _ & _ & _ & Fx & Fy & ->)]; [now apply (join_chars ts l)|].
      rewrite !chars_app, !in_app_iff in I. destruct I as [I|[[<-|[<-|[]]]|I]]; [now apply (join_chars tx x)|now left|now left|now apply (join_chars ty y)].
  - intros s a W. apply c115_ipv6_pf in W as (l & A & P). destruct (address_bound _ _ A) as [B L].
    destruct P as [(_ & ts & F & ->)|(x & run & y & tx & ty & [-> _] & Lr & _ & Fx & Fy & ->)].
    + rewrite (join_count ts l F). lia.
    + rewrite !chars_app, !count_occ_app, (join_count tx x Fx), (join_count ty y Fy). rewrite !app_length in L. cbn. lia.
Qed.
