From Coq Require Import Lia.
From Verif Require Import Base BaseFacts Utf8 Utf8Facts JsonText JsonTextFacts Base64Facts UrlEncoded UrlEncodedFacts Url WebUrl SpecWebUrl.

(* ------------------------------------------------------------ characters *)
Definition cl (ex : string) (c : ascii) : bool := negb (in_controls c) && negb (has_char c ex).
Lemma in_chars c s : In c (chars s) <-> has_char c s = true.
Proof.
  unfold chars. induction s as [|d s IH]; cbn [list_ascii_of_string has_char In]; [split; [contradiction|discriminate]|].
  rewrite orb_true_iff, <- IH, Ascii.eqb_eq. split; intros [E|H]; auto.
Qed.
Lemma controls_iff c : in_controls c = false <-> (32 <= byte c <= 126)%N.
Proof. unfold in_controls. rewrite orb_false_iff, !N.ltb_ge. lia. Qed.
Lemma str_all_chars f s : str_all f s = true <-> forall c, In c (chars s) -> f c = true.
Proof.
  unfold chars. induction s as [|d s IH]; cbn [list_ascii_of_string str_all In]; [split; [contradiction|reflexivity]|].
  rewrite andb_true_iff, IH. split; [intros [H1 H2] c [<-|H]; auto|intros H; split; auto].
Qed.
Lemma clean_iff ex s : clean ex s <-> str_all (cl ex) s = true.
Proof.
  rewrite str_all_chars. unfold clean, cl. split; intros H c I; specialize (H c I).
  - destruct H as [H1 H2]. rewrite in_chars in H2. apply controls_iff in H1. rewrite H1. now destruct (has_char c ex); [exfalso; apply H2|].
  - apply andb_true_iff in H as [H1 H2]. rewrite negb_true_iff in H1, H2. split; [now apply controls_iff|]. rewrite in_chars, H2. discriminate.
Qed.
Lemma sweep (f g : ascii -> bool) : forallb (fun c => Bool.eqb (f c) (g c)) all_ascii = true -> forall c, f c = g c.
Proof. intros H c. apply Bool.eqb_prop. exact (proj1 (forallb_forall _ _) H c (all_ascii_in c)). Qed.
Lemma sweep_impl (f g : ascii -> bool) : forallb (fun c => implb (f c) (g c)) all_ascii = true -> forall c, f c = true -> g c = true.
Proof. intros H c F. assert (X := proj1 (forallb_forall _ _) H c (all_ascii_in c)). cbn beta in X. rewrite F in X. exact X. Qed.

Definition ex_fragment : string := " ""<>`".
Definition ex_path : string := " ""<>`#?{}".
Definition ex_user : string := " ""<>`#?{}/:;=@[\]^|".
Definition ex_query (sp : bool) : string := if sp then " ""#<>'" else " ""#<>".
Lemma frag_set c : negb (in_fragment c) = cl ex_fragment c.
Proof. revert c. apply sweep. vm_compute. reflexivity. Qed.
Lemma path_set c : negb (in_path c) = cl ex_path c.
Proof. revert c. apply sweep. vm_compute. reflexivity. Qed.
Lemma user_set c : negb (in_userinfo c) = cl ex_user c.
Proof. revert c. apply sweep. vm_compute. reflexivity. Qed.
Lemma query_set sp c : negb (in_query sp c) = cl (ex_query sp) c.
Proof. revert c. apply sweep. destruct sp; vm_compute; reflexivity. Qed.
Lemma ctrl_set c : negb (in_controls c) = cl "" c.
Proof. revert c. apply sweep. vm_compute. reflexivity. Qed.

Lemma str_all_eq (f g : ascii -> bool) s : (forall c, f c = g c) -> str_all f s = str_all g s.
Proof. intros H. induction s as [|c s IH]; cbn [str_all]; [reflexivity|now rewrite H, IH]. Qed.
Lemma cl_no ex c s : has_char c ex = true -> str_all (cl ex) s = true -> has_char c s = false.
Proof. intros E H. apply (has_char_all c (cl ex) s); [|exact H]. unfold cl. rewrite E. now rewrite andb_false_r. Qed.

(* ------------------------------------------------------------ percent-encoding *)
Lemma pct_clean set s : str_all (fun c => negb (set c)) s = true -> pct set s = s.
Proof.
  induction s as [|c s IH]; cbn [str_all pct]; [reflexivity|]. rewrite andb_true_iff, negb_true_iff. intros [H1 H2].
  unfold pct_char. rewrite H1, IH by exact H2. reflexivity.
Qed.
Definition hexes : string := "%0123456789ABCDEF".
Lemma hex_upper_in n : (n < 16)%N -> has_char (hex_upper n) hexes = true.
Proof.
  intros H. assert (K : forallb (fun k => has_char (hex_upper (N.of_nat k)) hexes) (seq 0 16) = true) by (vm_compute; reflexivity).
  rewrite forallb_forall in K. specialize (K (N.to_nat n)). rewrite N2Nat.id in K. apply K. apply in_seq. lia.
Qed.
Lemma pct_out (set g : ascii -> bool) s : (forall c, set c = false -> g c = true \/ has_char c s = false) ->
  (forall c, has_char c hexes = true -> g c = true) -> str_all g (pct set s) = true.
Proof.
  intros Hs Hh. induction s as [|c s IH]; [reflexivity|]. cbn [pct]. rewrite str_all_app. apply andb_true_iff. split.
  - unfold pct_char. destruct (set c) eqn:E.
    + cbn [str_all s1]. rewrite !Hh; [reflexivity| | |reflexivity]; apply hex_upper_in.
      * apply N.mod_lt. lia.
      * apply N.div_lt_upper_bound; [lia|]. assert (B := byte_lt c). lia.
    + cbn [str_all s1]. rewrite andb_true_r. destruct (Hs c E) as [G|G]; [exact G|]. cbn [has_char] in G. rewrite Ascii.eqb_refl in G. discriminate.
  - apply IH. intros d Hd. destruct (Hs d Hd) as [G|G]; [now left|right]. cbn [has_char] in G. now apply orb_false_iff in G as [_ G].
Qed.
(** Encoded text is made of characters outside the set. *)
Lemma pct_cl set ex s : (forall c, negb (set c) = cl ex c) -> (forall c, has_char c hexes = true -> cl ex c = true) -> str_all (cl ex) (pct set s) = true.
Proof. intros E H. apply pct_out; [|exact H]. intros c S. left. rewrite <- E, S. reflexivity. Qed.
Lemma hexes_ok ex : forallb (fun c => implb (has_char c hexes) (cl ex c)) all_ascii = true -> forall c, has_char c hexes = true -> cl ex c = true.
Proof. intros H. now apply sweep_impl. Qed.

Lemma pct_nil set s : pct set s = "" -> s = "".
Proof. destruct s as [|c s]; [reflexivity|]. cbn [pct]. unfold pct_char. destruct (set c); discriminate. Qed.
Lemma pct_no set c s : has_char c hexes = false -> has_char c s = false -> has_char c (pct set s) = false.
Proof.
  intros Hh Hs. assert (A : str_all (fun d => negb (Ascii.eqb c d)) (pct set s) = true).
  { apply pct_out.
    - intros d _. destruct (Ascii.eqb_spec c d) as [<-|N]; [now right|now left].
    - intros d Hd. destruct (Ascii.eqb_spec c d) as [<-|N]; [congruence|reflexivity]. }
  refine (has_char_all c _ _ _ A). now rewrite Ascii.eqb_refl.
Qed.

(* a dot segment is not made by encoding *)
Lemma pct_inv set s c t : pct set s = String c t ->
  (exists r, s = String c r /\ set c = false /\ pct set r = t)
  \/ (exists d r, s = String d r /\ set d = true /\ c = "%"%char /\ t = String (hex_upper (byte d / 16)) (String (hex_upper (byte d mod 16)) (pct set r))).
Proof.
  destruct s as [|d s]; [discriminate|]. cbn [pct]. unfold pct_char. destruct (set d) eqn:E; cbn [String.append s1].
  - intros H. injection H as <- <-. right. exists d, s. auto.
  - intros H. injection H as <- <-. left. exists s. auto.
Qed.
Lemma hex_not_dot d : in_path d = true -> ~ (hex_upper (byte d / 16) = "2"%char /\ (hex_upper (byte d mod 16) = "e"%char \/ hex_upper (byte d mod 16) = "E"%char)).
Proof.
  intros H (A & B).
  assert (K : forallb (fun d => implb (in_path d) (negb (Ascii.eqb (hex_upper (byte d / 16)) "2" && (Ascii.eqb (hex_upper (byte d mod 16)) "e" || Ascii.eqb (hex_upper (byte d mod 16)) "E")))) all_ascii = true)
    by (vm_compute; reflexivity).
  assert (X := proj1 (forallb_forall _ _) K d (all_ascii_in d)). cbn beta in X. rewrite H, A in X. destruct B as [B|B]; rewrite B in X; discriminate.
Qed.
Lemma pct_dots s t : In t dots -> pct in_path s = t -> s = t.
Proof.
  assert (P : forall s t, pct in_path s = String "." t -> exists r, s = String "." r /\ pct in_path r = t).
  { intros s0 t0 H. destruct (pct_inv _ _ _ _ H) as [(r & -> & _ & E)|(d & r & _ & _ & E & _)]; [eauto|discriminate]. }
  assert (Q : forall s t x, x = "e"%char \/ x = "E"%char -> pct in_path s = String "%" (String "2" (String x t)) -> exists r, s = String "%" (String "2" (String x r)) /\ pct in_path r = t).
  { intros s0 t0 x X H. destruct (pct_inv _ _ _ _ H) as [(r & -> & _ & E)|(d & r & _ & S & _ & E)].
    - destruct (pct_inv _ _ _ _ E) as [(r2 & -> & _ & E2)|(d & r2 & _ & _ & E2 & _)]; [|discriminate].
      destruct (pct_inv _ _ _ _ E2) as [(r3 & -> & _ & E3)|(d & r3 & _ & _ & E3 & _)]; [eauto|destruct X as [->| ->]; discriminate].
    - exfalso. injection E as E1 E2 _. apply (hex_not_dot d S). split; [now symmetry|]. rewrite <- E2. exact X. }
  assert (Z : forall r, pct in_path r = "" -> r = "") by (intros r; apply pct_nil).
  intros I H. unfold dots in I.
  repeat (destruct I as [<-|I];
    [repeat match goal with
     | H : pct in_path ?s = String "." _ |- _ => apply P in H as (? & -> & H)
     | H : pct in_path ?s = String "%" (String "2" (String "e" _)) |- _ => apply (Q _ _ "e"%char) in H as (? & -> & H); [|now left]
     | H : pct in_path ?s = String "%" (String "2" (String "E" _)) |- _ => apply (Q _ _ "E"%char) in H as (? & -> & H); [|now right]
     | H : pct in_path ?s = "" |- _ => apply Z in H; subst
     end; reflexivity|]).
  contradiction.
Qed.

(* ------------------------------------------------------------ paths *)
Lemma dot_iff s : double_dot s || single_dot s = true <-> In s dots.
Proof.
  unfold double_dot, single_dot. rewrite orb_true_iff, !mem_str_iff. unfold dots. cbn [In]. tauto.
Qed.
Lemma dot_false s : ~ In s dots -> double_dot s = false /\ single_dot s = false.
Proof. intros H. rewrite <- dot_iff in H. apply not_true_is_false in H. now apply orb_false_iff in H. Qed.

Definition plain_segment (s : string) : Prop := str_all (cl ex_path) s = true /\ has_char "/" s = false /\ ~ In s dots.
Lemma walk_plain l : forall before, l <> [] -> (forall s, In s l -> plain_segment s) -> walk before l = rev before ++ l.
Proof.
  induction l as [|s l IH]; intros before N H; [congruence|]. destruct (H s (or_introl eq_refl)) as (C & _ & D).
  apply dot_false in D as [D1 D2]. cbn [walk]. rewrite D1, D2. cbn [orb].
  rewrite pct_clean by (rewrite (str_all_eq _ _ s path_set); exact C).
  destruct l as [|s' l]; [cbn [rev]; reflexivity|]. rewrite IH; [|discriminate|intros x X; apply H; now right]. cbn [rev]. now rewrite <- app_assoc.
Qed.
Lemma walk_out l : forall before, l <> [] -> (forall s, In s l -> has_char "/" s = false) -> (forall s, In s before -> plain_segment s) ->
  walk before l <> [] /\ forall s, In s (walk before l) -> plain_segment s.
Proof.
  assert (E : plain_segment "") by (split; [reflexivity|split; [reflexivity|]]; intros I; cbn in I; intuition discriminate).
  induction l as [|s l IH]; intros before N H B; [congruence|]. cbn [walk].
  set (b' := if double_dot s then tl before else if single_dot s then before else pct in_path s :: before).
  assert (B' : forall x, In x b' -> plain_segment x).
  { unfold b'. intros x. destruct (double_dot s) eqn:D1; [destruct before; [contradiction|intros I; apply B; now right]|].
    destruct (single_dot s) eqn:D2; [apply B|]. intros [<-|I]; [|now apply B]. split; [|split].
    - apply pct_cl; [exact path_set|apply hexes_ok; vm_compute; reflexivity].
    - apply pct_no; [reflexivity|apply H; now left].
    - intros I. apply (fun X => pct_dots s _ X eq_refl) in I as Eq. rewrite <- Eq in I. apply dot_iff in I. rewrite D1, D2 in I. discriminate. }
  destruct l as [|s' l].
  - split.
    + destruct (double_dot s || single_dot s) eqn:D.
      * cbn [rev]. intros X. apply app_eq_nil in X as [_ X]. discriminate.
      * apply orb_false_iff in D as [D1 D2]. unfold b'. rewrite D1, D2. cbn [rev]. intros X. apply app_eq_nil in X as [_ X]. discriminate.
    + intros x I. apply in_rev in I. destruct (double_dot s || single_dot s); [destruct I as [<-|I]; [exact E|now apply B']|now apply B'].
  - apply IH; [discriminate|intros x I; apply H; now right|exact B'].
Qed.
Lemma split_all_no c s : forall x, In x (split_all c s) -> has_char c x = false.
Proof.
  induction s as [|d s IH]; cbn [split_all]; intros x; [intros [<-|[]]; reflexivity|].
  destruct (Ascii.eqb c d) eqn:E; [intros [<-|I]; [reflexivity|now apply IH]|].
  destruct (split_all c s) as [|p ps] eqn:S.
  - intros [<-|[]]. cbn [has_char s1]. now rewrite E.
  - intros [<-|I]; [|apply IH; now right]. cbn [has_char]. rewrite E. apply IH. now left.
Qed.
Lemma split_all_nonempty c s : split_all c s <> [].
Proof. destruct s as [|d s]; cbn [split_all]; [discriminate|]. destruct (Ascii.eqb c d); [discriminate|]. destruct (split_all c s); discriminate. Qed.
Lemma split_all_has d c s : has_char d s = false -> forall x, In x (split_all c s) -> has_char d x = false.
Proof.
  revert d. induction s as [|e s IH]; intros d H x; cbn [split_all]; [intros [<-|[]]; reflexivity|].
  cbn [has_char] in H. apply orb_false_iff in H as [H1 H2].
  destruct (Ascii.eqb c e); [intros [<-|I]; [reflexivity|now apply (IH d H2)]|].
  destruct (split_all c s) as [|p ps] eqn:S.
  - intros [<-|[]]. cbn [has_char s1]. now rewrite H1.
  - intros [<-|I]; [|apply (IH d H2); now right]. cbn [has_char]. rewrite H1. apply (IH d H2). now left.
Qed.
Lemma split_join_slash l : l <> [] -> (forall s, In s l -> has_char "/" s = false) -> split_all "/" (join "/" l) = l.
Proof.
  induction l as [|s l IH]; intros N H; [congruence|]. destruct l as [|s' l].
  - cbn [join]. apply split_all_nochar. apply H. now left.
  - change (join "/" (s :: s' :: l)) with (s +:+ String "/" (join "/" (s' :: l))). rewrite split_all_cons by (apply H; now left).
    rewrite IH; [reflexivity|discriminate|intros x I; apply H; now right].
Qed.
Lemma segments_out p : segments p <> [] /\ forall s, In s (segments p) -> plain_segment s.
Proof.
  unfold segments. apply walk_out; [apply split_all_nonempty|apply split_all_no|contradiction].
Qed.
Lemma segments_plain l : l <> [] -> (forall s, In s l -> plain_segment s) -> segments (path_text l) = l.
Proof.
  intros N H. unfold segments, path_text. change ("/" +:+ join "/" l) with (String "/" (join "/" l)). cbv iota beta.
  rewrite split_join_slash by (auto; intros s I; apply H, I). now rewrite walk_plain.
Qed.
(** A backslash does not come out of a path without one. *)
Lemma walk_no c l : has_char c hexes = false -> forall before, (forall s, In s l -> has_char c s = false) -> (forall s, In s before -> has_char c s = false) ->
  forall s, In s (walk before l) -> has_char c s = false.
Proof.
  intros Hh. induction l as [|s l IH]; intros before H B x; cbn [walk]; [intros I; apply in_rev in I; auto|].
  set (b' := if double_dot s then tl before else if single_dot s then before else pct in_path s :: before).
  assert (B' : forall x, In x b' -> has_char c x = false).
  { unfold b'. intros y. destruct (double_dot s); [destruct before; [contradiction|intros I; apply B; now right]|].
    destruct (single_dot s); [apply B|]. intros [<-|I]; [|now apply B]. apply pct_no; [exact Hh|apply H; now left]. }
  destruct l as [|s' l].
  - intros I. apply in_rev in I. destruct (double_dot s || single_dot s); [destruct I as [<-|I]; [reflexivity|now apply B']|now apply B'].
  - apply IH; [intros y I; apply H; now right|exact B'].
Qed.

(* ------------------------------------------------------------ the authority *)
Lemma special_iff scheme : mem_str scheme special_schemes = true <-> special scheme.
Proof. apply mem_str_iff. Qed.
Lemma special_false scheme : mem_str scheme special_schemes = false <-> ~ special scheme.
Proof. rewrite <- special_iff. destruct (mem_str scheme special_schemes); split; intros H; try congruence. Qed.
Lemma default_iff scheme n : default_port scheme = Some n <-> In (scheme, n) usual_ports.
Proof.
  unfold default_port. split.
  - destruct (mem_str scheme ["http"; "ws"]) eqn:A.
    { apply mem_str_iff in A. intros H. injection H as <-. destruct A as [<-|[<-|[]]]; cbn; auto. }
    destruct (mem_str scheme ["https"; "wss"]) eqn:B.
    { apply mem_str_iff in B. intros H. injection H as <-. destruct B as [<-|[<-|[]]]; cbn; auto 6. }
    destruct (String.eqb_spec scheme "ftp") as [->|N]; [|discriminate]. intros H. injection H as <-. cbn. auto 8.
  - intros I. cbn [usual_ports In] in I.
    destruct I as [H|[H|[H|[H|[H|[]]]]]]; injection H as <- <-; reflexivity.
Qed.

Lemma cl_sub ex ex' s : (forall c, has_char c ex' = true -> has_char c ex = true) -> str_all (cl ex) s = true -> str_all (cl ex') s = true.
Proof.
  intros H. apply str_all_impl. intros c. unfold cl. rewrite !andb_true_iff, !negb_true_iff. intros [A B]. split; [exact A|].
  destruct (has_char c ex') eqn:E; [|reflexivity]. apply H in E. congruence.
Qed.
Ltac charset := let c := fresh in intros c; revert c; apply sweep_impl; vm_compute; reflexivity.
Lemma clean_nil ex : str_all (cl ex) "" = true. Proof. reflexivity. Qed.
Lemma str_nonempty (s : string) : s <> "" -> exists c r, s = String c r.
Proof. destruct s as [|c r]; [congruence|eauto]. Qed.
Lemma eqb_nonempty s : s <> "" -> String.eqb s "" = false.
Proof. intros H. now apply String.eqb_neq. Qed.
Lemma split_opt_none c s : has_char c s = false -> split_opt c s = (s, None).
Proof. intros H. unfold split_opt. apply split_once_none in H. now rewrite H. Qed.
Lemma split_opt_at c a b : has_char c a = false -> split_opt c (a +:+ String c b) = (a, Some b).
Proof. intros H. unfold split_opt. rewrite (proj2 (split_once_some c _ a b) (conj eq_refl H)). reflexivity. Qed.
Lemma split_opt_out c s a o : split_opt c s = (a, o) -> has_char c a = false /\ s = a +:+ match o with Some b => String c b | None => "" end.
Proof.
  unfold split_opt. destruct (split_once c s) as [[x y]|] eqn:E; intros H; injection H as <- <-.
  - apply split_once_some in E as [-> E]. now split.
  - apply split_once_none in E. now rewrite sapp_nil_r.
Qed.
Lemma strip_none c s p : has_char c s = false -> strip_prefix (String c p) s = None.
Proof.
  intros H. destruct (strip_prefix (String c p) s) as [r|] eqn:E; [|reflexivity]. apply strip_prefix_some in E. subst s.
  cbn [String.append has_char] in H. rewrite Ascii.eqb_refl in H. discriminate.
Qed.

Definition ex_domain : string := " #/:<>?@[\]^|%".
Definition ex_opaque : string := " #/:<>?@[\]^|".
Definition ex_authority : string := " #/<>?\^|".
Lemma digits_cl ex s : forallb (fun c => implb (is_digit c) (cl ex c)) all_ascii = true -> str_all is_digit s = true -> str_all (cl ex) s = true.
Proof. intros H. apply str_all_impl. now apply sweep_impl. Qed.

Section Authority.
Variables domain ipv6 : string -> option string.
Hypothesis H : hosts_ok domain ipv6.

Lemma ipv6_out s a : ipv6 s = Some a -> ipv6 a = Some a /\ str_all (fun c => Ascii.eqb c ":" || in_range 48 57 c || in_range 97 102 c) a = true.
Proof.
  intros E. destruct (proj2 H s a E) as [E1 E2]. split; [exact E1|]. apply str_all_chars. intros c I. unfold in_range.
  destruct (E2 c I) as [->|[X|X]]; [reflexivity| |].
  - rewrite !orb_true_iff, !andb_true_iff, !N.leb_le. auto.
  - rewrite !orb_true_iff, !andb_true_iff, !N.leb_le. auto.
Qed.
Lemma ipv6_cl ex s a : forallb (fun c => implb (Ascii.eqb c ":" || in_range 48 57 c || in_range 97 102 c) (cl ex c)) all_ascii = true ->
  ipv6 s = Some a -> str_all (cl ex) a = true.
Proof. intros K E. apply ipv6_out in E as [_ E]. revert E. apply str_all_impl. now apply sweep_impl. Qed.
Lemma domain_out s d : domain s = Some d -> domain d = Some d /\ d <> "" /\ str_all (cl ex_domain) d = true.
Proof. intros E. destruct (proj1 H s d E) as (A & B & C). split; [exact A|split; [exact B|]]. now apply clean_iff. Qed.

Lemma user_cl s : user_text s <-> str_all (cl ex_user) s = true.
Proof. apply clean_iff. Qed.
Lemma pct_user s : user_text s -> pct in_userinfo s = s.
Proof. intros U. apply user_cl in U. apply pct_clean. now rewrite (str_all_eq _ _ s user_set). Qed.
Lemma user_pct s : user_text (pct in_userinfo s).
Proof. apply user_cl. apply pct_cl; [exact user_set|apply hexes_ok; vm_compute; reflexivity]. Qed.

Lemma userinfo_out t : userinfo (userinfo_text t).
Proof.
  unfold userinfo_text. destruct (split_opt ":" t) as [user password]. set (p := match password with Some p => p | None => "" end).
  destruct (String.eqb_spec p "") as [E|E].
  - rewrite andb_true_r. cbn [String.append]. destruct (String.eqb_spec user "") as [->|N]; [left; reflexivity|].
    right. left. exists (pct in_userinfo user). split; [reflexivity|]. split; [apply user_pct|]. intros X. apply pct_nil in X. contradiction.
  - rewrite andb_false_r. right. right. exists (pct in_userinfo user), (pct in_userinfo p).
    split; [now rewrite !sapp_assoc|]. split; [apply user_pct|]. split; [apply user_pct|]. intros X. apply pct_nil in X. contradiction.
Qed.
(** The printed user information is nothing, or a text before an at sign that is read as itself. *)
Lemma userinfo_in s : userinfo s -> s = "" \/ exists t, s = t +:+ "@" /\ userinfo_text t = s.
Proof.
  intros [->|[(u & -> & U & N)|(u & p & -> & U & P & N)]]; [now left| |]; right.
  - exists u. split; [reflexivity|]. unfold userinfo_text. rewrite split_opt_none by (apply user_cl in U; revert U; now apply cl_no).
    cbn [String.eqb]. rewrite andb_true_r, (eqb_nonempty u N), (pct_user u U). reflexivity.
  - exists (u +:+ ":" +:+ p). split; [now rewrite !sapp_assoc|]. unfold userinfo_text. cbn [String.append].
    rewrite split_opt_at by (apply user_cl in U; revert U; now apply cl_no).
    rewrite (eqb_nonempty p N), andb_false_r, (pct_user u U), (pct_user p P). reflexivity.
Qed.
Lemma userinfo_cl s : userinfo s -> str_all (cl ex_authority) s = true.
Proof.
  assert (K : forall u, user_text u -> str_all (cl ex_authority) u = true) by (intros u U; apply user_cl in U; revert U; apply cl_sub; charset).
  intros [->|[(u & -> & U & _)|(u & p & -> & U & P & _)]]; [reflexivity| |]; rewrite !str_all_app.
  - rewrite (K u U). reflexivity.
  - rewrite (K u U), (K p P). reflexivity.
Qed.

Lemma port_out scheme t o : read_port scheme t = Some o -> port scheme (port_text o).
Proof.
  unfold read_port. destruct (String.eqb t ""); [intros X; injection X as <-; now left|].
  destruct (str_all is_digit t); [|discriminate]. destruct (N.leb_spec (digits_val 0 t) 65535) as [L|L]; [|discriminate].
  intros X. injection X as <-. destruct (default_port scheme) as [d|] eqn:D.
  - destruct (N.eqb_spec (digits_val 0 t) d) as [E|E]; [now left|]. right. exists (digits_val 0 t). split; [reflexivity|]. split; [exact L|].
    rewrite <- default_iff, D. intros X. injection X as X. congruence.
  - right. exists (digits_val 0 t). split; [reflexivity|]. split; [exact L|]. rewrite <- default_iff, D. discriminate.
Qed.
Lemma port_in scheme s : port scheme s ->
  exists pt o, s = match pt with Some t => String ":" t | None => "" end /\ match pt with Some t => read_port scheme t | None => Some None end = Some o
    /\ port_text o = s /\ (pt = None <-> s = "").
Proof.
  intros [->|(n & -> & L & N)]; [exists None, None; now repeat split|].
  exists (Some (dec_N n)), (Some n). split; [reflexivity|]. destruct (dec_N_spec n) as (D1 & D2 & D3 & _). split; [|split; [reflexivity|split; discriminate]].
  unfold read_port. rewrite (eqb_nonempty _ D2), D1, D3. apply N.leb_le in L. rewrite L.
  destruct (default_port scheme) as [d|] eqn:D; [|reflexivity]. destruct (N.eqb_spec n d) as [->|_]; [|reflexivity].
  elim N. now apply default_iff.
Qed.
Lemma port_cl scheme s ex : forallb (fun c => implb (is_digit c) (cl ex c)) all_ascii = true -> cl ex ":" = true -> port scheme s -> str_all (cl ex) s = true.
Proof.
  intros K C [->|(n & -> & _)]; [reflexivity|]. cbn [String.append str_all]. rewrite C. apply digits_cl; [exact K|apply dec_N_digits].
Qed.

Lemma opaque_chars h : str_all (fun c => negb (has_char c (String (chr 0) " #/:<>?@[\]^|"))) h = true -> str_all (cl ex_opaque) (pct in_controls h) = true.
Proof.
  intros K. apply pct_out; [|apply hexes_ok; vm_compute; reflexivity]. intros c C.
  destruct (has_char c h) eqn:E; [left|now right]. assert (X := K). rewrite str_all_chars in X. apply in_chars in E. specialize (X c E).
  rewrite negb_true_iff in X. unfold cl. rewrite C. cbn [negb andb]. unfold ex_opaque. cbn [has_char] in X |- *.
  apply orb_false_iff in X as [_ X]. now rewrite X.
Qed.
Lemma host_out scheme t h p : read_host domain ipv6 (mem_str scheme special_schemes) t = Some (h, p) -> host domain ipv6 scheme h.
Proof.
  unfold read_host. destruct (strip_prefix "[" t) as [r|].
  - destruct (split_once "]" r) as [[ip rest]|]; [|discriminate]. destruct (ipv6 ip) as [a|] eqn:E; [|discriminate].
    intros X. assert (Y : h = "[" +:+ a +:+ "]") by (destruct rest as [|c p']; [congruence|destruct (Ascii.eqb c ":"); congruence]).
    left. exists a. split; [exact Y|]. now apply (ipv6_out ip).
  - destruct (split_opt ":" t) as [h0 p0]. destruct (mem_str scheme special_schemes) eqn:S.
    + destruct (domain h0) as [d|] eqn:D; [|discriminate]. intros X. injection X as <- <-. right. left. split; [now apply special_iff|]. now apply (domain_out h0).
    + destruct (str_all _ h0) eqn:A; [|discriminate]. intros X. injection X as <- <-. right. right. split; [now apply special_false|].
      apply clean_iff. now apply opaque_chars.
Qed.
Lemma host_in scheme h pt : host domain ipv6 scheme h ->
  read_host domain ipv6 (mem_str scheme special_schemes) (h +:+ match pt with Some t => String ":" t | None => "" end) = Some (h, pt).
Proof.
  intros [(a & -> & E)|K].
  - unfold read_host. rewrite !sapp_assoc, strip_prefix_app. change ("]" +:+ ?x) with (String "]" x).
    assert (X : has_char "]" a = false).
    { apply (cl_no "]"); [reflexivity|]. apply (ipv6_cl "]" a a); [vm_compute; reflexivity|exact E]. }
    rewrite (proj2 (split_once_some "]" _ a _) (conj eq_refl X)), E. destruct pt; reflexivity.
  - assert (C : str_all (cl ex_opaque) h = true).
    { destruct K as [[_ D]|[_ C]]; [|now apply clean_iff]. apply domain_out in D as (_ & _ & D). revert D. apply cl_sub. charset. }
    assert (S : split_opt ":" (h +:+ match pt with Some t => String ":" t | None => "" end) = (h, pt)).
    { assert (N := cl_no ex_opaque ":" h eq_refl C). destruct pt as [t|]; [now apply split_opt_at|]. rewrite sapp_nil_r. now apply split_opt_none. }
    assert (B : strip_prefix "[" (h +:+ match pt with Some t => String ":" t | None => "" end) = None).
    { destruct h as [|c r]; [destruct pt; reflexivity|]. cbn [String.append strip_prefix].
      destruct (Ascii.eqb_spec "[" c) as [<-|_]; [|reflexivity]. cbn [str_all] in C. discriminate. }
    unfold read_host. rewrite B, S. destruct K as [[Sp D]|[Sp Cl]].
    + rewrite (proj2 (special_iff scheme) Sp), D. reflexivity.
    + rewrite (proj2 (special_false scheme) Sp).
      replace (str_all _ h) with true.
      * rewrite pct_clean; [reflexivity|]. rewrite (str_all_eq _ _ h ctrl_set). revert C. apply cl_sub. intros c; discriminate.
      * symmetry. revert C. apply str_all_impl. apply sweep_impl. vm_compute. reflexivity.
Qed.
Lemma host_cl scheme h ex : (forall c, has_char c ex = true -> has_char c ex_opaque = true) ->
  forallb (fun c => implb (Ascii.eqb c ":" || in_range 48 57 c || in_range 97 102 c || Ascii.eqb c "[" || Ascii.eqb c "]") (cl ex c)) all_ascii = true ->
  host domain ipv6 scheme h -> str_all (cl ex) h = true.
Proof.
  intros Hx K [(a & -> & E)|[[_ D]|[_ C]]].
  - apply ipv6_out in E as [_ E]. assert (I := sweep_impl _ _ K). rewrite !str_all_app. cbn [str_all].
    rewrite (I "["%char eq_refl), (I "]"%char eq_refl), andb_true_r. revert E. cbn [andb]. rewrite andb_true_r. apply str_all_impl. intros c X. apply I. now rewrite X.
  - apply domain_out in D as (_ & _ & D). revert D. apply cl_sub. intros c X. apply Hx in X. revert X. revert c. charset.
  - apply clean_iff in C. revert C. now apply cl_sub.
Qed.

Lemma authority_out scheme t a : read_authority domain ipv6 scheme (mem_str scheme special_schemes) t = Some a ->
  authority domain ipv6 scheme a /\ (special scheme -> a <> "").
Proof.
  unfold read_authority.
  destruct (match rsplit_once "@" t with Some (u, h) => (Some u, h) | None => (None, t) end) as [user hp].
  destruct (read_host domain ipv6 (mem_str scheme special_schemes) hp) as [[h pt]|] eqn:R; [|discriminate].
  destruct (match pt with Some t => read_port scheme t | None => Some None end) as [o|] eqn:P; [|discriminate].
  destruct (String.eqb h "" && _) eqn:E; [discriminate|]. intros X. injection X as <-.
  assert (Po : port scheme (port_text o)).
  { destruct pt as [t'|]; [now apply (port_out scheme t')|]. injection P as <-. now left. }
  split.
  - exists (match user with Some u => userinfo_text u | None => "" end), h, (port_text o). split; [reflexivity|].
    split; [destruct user; [apply userinfo_out|now left]|]. split; [now apply (host_out scheme hp h pt)|]. split; [exact Po|].
    intros ->. cbn [String.eqb andb] in E. apply orb_false_iff in E as [_ E]. destruct user, pt; try discriminate. injection P as <-. now split.
  - intros S X. apply special_iff in S. rewrite S in E. cbn [orb] in E. rewrite andb_true_r in E. apply String.eqb_neq in E.
    destruct (match user with Some u => userinfo_text u | None => "" end); [|discriminate]. destruct h; [contradiction|discriminate].
Qed.
Lemma authority_in scheme a : authority domain ipv6 scheme a -> (special scheme -> a <> "") ->
  read_authority domain ipv6 scheme (mem_str scheme special_schemes) a = Some a.
Proof.
  intros (u & h & p & -> & U & Ho & P & E) Sp. destruct (port_in scheme p P) as (pt & o & Ep & R & Eo & En).
  assert (At : has_char "@" (h +:+ p) = false).
  { rewrite has_char_app. apply orb_false_iff. split; apply (cl_no "@"); try reflexivity.
    - apply (host_cl scheme); [charset|vm_compute; reflexivity|exact Ho].
    - apply (port_cl scheme); [vm_compute; reflexivity|reflexivity|exact P]. }
  assert (Hh := host_in scheme h pt Ho). rewrite <- Ep in Hh.
  assert (Fin : forall user, (user = None -> u = "") -> (user <> None -> u <> "") ->
    String.eqb h "" && (mem_str scheme special_schemes || match (user : option string), pt with None, None => false | _, _ => true end) = false).
  { intros user Hn Hs. destruct (String.eqb_spec h "") as [->|_]; [|reflexivity]. destruct (E eq_refl) as [-> ->]. cbn [andb].
    apply orb_false_iff. split.
    - apply special_false. intros S. now apply Sp in S.
    - destruct user; [elim Hs; congruence|]. now rewrite (proj2 En eq_refl). }
  unfold read_authority. destruct (userinfo_in u U) as [->|(t & Et & Ut)].
  - cbn [String.append]. assert (F := Fin None (fun _ => eq_refl) (fun X => False_ind _ (X eq_refl))).
    rewrite (proj2 (rsplit_once_none "@" _) At), Hh, R. cbv iota in F |- *. rewrite F. cbn [String.append]. now rewrite Eo.
  - assert (X : rsplit_once "@" (u +:+ h +:+ p) = Some (t, h +:+ p)).
    { apply rsplit_once_some. split; [|exact At]. rewrite Et, sapp_assoc. reflexivity. }
    assert (F := Fin (Some t)). rewrite X, Hh, R. cbv iota in F |- *. rewrite F; [now rewrite Ut, Eo|discriminate|].
    intros _ Z. rewrite Z in Et. destruct t; discriminate.
Qed.
Lemma authority_cl scheme a : authority domain ipv6 scheme a -> str_all (cl ex_authority) a = true.
Proof.
  intros (u & h & p & -> & U & Ho & P & _). rewrite !str_all_app, (userinfo_cl u U). cbn [andb]. apply andb_true_iff. split.
  - apply (host_cl scheme); [charset|vm_compute; reflexivity|exact Ho].
  - apply (port_cl scheme); [vm_compute; reflexivity|reflexivity|exact P].
Qed.
End Authority.

(* ------------------------------------------------------------ the whole URL *)
Lemma trim_id s : str_all (cl " ") s = true -> trim_right s = s.
Proof.
  induction s as [|c s IH]; [reflexivity|]. cbn [str_all trim_right]. rewrite andb_true_iff. intros [C S]. rewrite (IH S).
  destruct s; [|reflexivity]. replace (control_or_space c) with false; [reflexivity|]. symmetry. apply negb_true_iff. revert C. revert c. apply sweep_impl. vm_compute. reflexivity.
Qed.
Lemma trim_app a b : b <> "" -> trim_right b = b -> trim_right (a +:+ b) = a +:+ b.
Proof.
  intros N E. induction a as [|c a IH]; [exact E|]. cbn [String.append trim_right]. rewrite IH.
  destruct (a +:+ b) eqn:X; [|reflexivity]. destruct a; [contradiction|discriminate].
Qed.
Lemma trim_last s : str_all (cl "") s = true -> (forall r, s <> r +:+ " ") -> trim_right s = s.
Proof.
  induction s as [|c s IH]; [reflexivity|]. cbn [str_all trim_right]. rewrite andb_true_iff. intros [C S] N.
  rewrite (IH S) by (intros r ->; now apply (N (String c r))). destruct s; [|reflexivity].
  destruct (control_or_space c) eqn:E; [|reflexivity]. exfalso. apply (N ""). cbn [String.append]. f_equal.
  apply byte_inj. unfold control_or_space in E. apply N.leb_le in E. rewrite <- ctrl_set in C. apply negb_true_iff, controls_iff in C. change (byte " ") with 32%N. lia.
Qed.
Lemma trim_out s : forall r, trim_right s <> r +:+ " ".
Proof.
  induction s as [|c s IH]; intros r; cbn [trim_right]; [destruct r; discriminate|].
  destruct (trim_right s) as [|d t] eqn:E.
  - destruct (control_or_space c) eqn:C; [destruct r; discriminate|]. intros X. destruct r as [|e r]; [|destruct r; discriminate].
    cbn in X. injection X as ->. discriminate.
  - destruct r as [|e r]; [discriminate|]. intros X. injection X as _ X. now apply (IH r).
Qed.
Lemma drop_last s : forall r, (forall r, s <> r +:+ " ") -> (forall r c, tab_or_newline c = true -> s <> r +:+ s1 c) -> drop_tabs s <> r +:+ " ".
Proof.
  induction s as [|c s IH]; intros r A B; cbn [drop_tabs]; [destruct r; discriminate|].
  assert (A' : forall r, s <> r +:+ " ") by (intros r0 ->; now apply (A (String c r0))).
  assert (B' : forall r c, tab_or_newline c = true -> s <> r +:+ s1 c) by (intros r0 d D ->; now apply (B (String c r0) d D)).
  destruct (tab_or_newline c) eqn:T; [now apply IH|]. destruct r as [|e r].
  - cbn [String.append]. intros X. injection X as -> X.
    assert (S : s = "" \/ exists r c, s = r +:+ s1 c).
    { clear. induction s as [|d s IH]; [now left|]. right. destruct IH as [->|(r & c & ->)]; [exists "", d|exists (String d r), c]; reflexivity. }
    destruct S as [->|(r & d & ->)]; [now apply (A "")|]. destruct (tab_or_newline d) eqn:D; [now apply (B' r d D)|].
    clear - X D. induction r as [|x r IH]; cbn [String.append s1 drop_tabs] in X; [rewrite D in X; discriminate|]. destruct (tab_or_newline x); [auto|discriminate].
  - cbn [String.append]. intros X. injection X as _ X. now apply (IH r A' B').
Qed.
Lemma trim_tab s c r : control_or_space c = true -> trim_right s <> r +:+ s1 c.
Proof.
  intros C. revert r. induction s as [|d s IH]; intros r; cbn [trim_right]; [destruct r; discriminate|].
  destruct (trim_right s) as [|e t] eqn:E.
  - destruct (control_or_space d) eqn:D; [destruct r; discriminate|]. intros X. destruct r as [|f r]; [|destruct r; discriminate].
    cbn in X. injection X as ->. congruence.
  - destruct r as [|f r]; [discriminate|]. intros X. injection X as _ X. now apply (IH r).
Qed.
Lemma drop_id s : str_all (cl "") s = true -> drop_tabs s = s.
Proof.
  induction s as [|c s IH]; [reflexivity|]. cbn [str_all drop_tabs]. rewrite andb_true_iff. intros [C S]. rewrite (IH S).
  replace (tab_or_newline c) with false; [reflexivity|]. symmetry. apply negb_true_iff. revert C. revert c. apply sweep_impl. vm_compute. reflexivity.
Qed.
Lemma pct_end set s r : pct set s = r +:+ " " -> exists r', s = r' +:+ " ".
Proof.
  revert r. induction s as [|c s IH]; intros r; [destruct r; discriminate|]. cbn [pct].
  destruct s as [|d s'] eqn:S.
  - cbn [pct]. rewrite sapp_nil_r. unfold pct_char. destruct (set c).
    + intros X. assert (B : has_char (hex_upper (byte c mod 16)) hexes = true) by (apply hex_upper_in, N.mod_lt; lia).
      destruct r as [|a [|b [|e r]]]; try discriminate; cbn [String.append s1] in X.
      * injection X as _ _ X. rewrite X in B. discriminate.
      * destruct r; discriminate.
    + intros X. destruct r as [|a r]; [|destruct r; discriminate]. cbn in X. injection X as ->. now exists "".
  - rewrite <- S in *. intros X.
    assert (Y : exists r2, pct set s = r2 +:+ " ").
    { assert (Z : pct set s <> "") by (intros Z; apply pct_nil in Z; congruence).
      unfold pct_char in X. clear IH. destruct (set c); cbn [String.append s1] in X.
      - destruct r as [|a [|b [|e r]]]; cbn [String.append] in X; try discriminate.
        + injection X as _ _ X. congruence.
        + injection X as _ _ _ X. now exists r.
      - destruct r as [|a r]; cbn [String.append] in X; [injection X as _ X; congruence|]. injection X as _ X. now exists r. }
    destruct Y as [r2 Y]. destruct (IH r2 Y) as [r' ->]. now exists (String c r').
Qed.

(* schemes *)
Lemma scheme_in s : scheme_name s -> scheme_ok s = true /\ lowered s = s /\ has_char ":" s = false /\ str_all (cl " /?#") s = true /\ s <> "file"
  /\ (exists c r, s = String c r /\ control_or_space c = false).
Proof.
  intros [(c & r & -> & C & R) F].
  set (ok := fun c => lower_alpha c || in_range 48 57 c || has_char c "+-.").
  assert (Oc : lower_alpha c = true) by (unfold lower_alpha, in_range; unfold small in C; rewrite andb_true_iff, !N.leb_le; exact C).
  assert (Or : str_all ok r = true).
  { apply str_all_chars. intros d I. unfold ok. rewrite !orb_true_iff. destruct (R d I) as [X|[X|X]].
    - left. left. unfold lower_alpha, in_range; unfold small in X; rewrite andb_true_iff, !N.leb_le; exact X.
    - left. right. unfold in_range. rewrite andb_true_iff, !N.leb_le. exact X.
    - right. now apply in_chars. }
  assert (Os : str_all ok (String c r) = true) by (cbn [str_all]; unfold ok at 1; now rewrite Oc, Or).
  assert (X1 : str_all scheme_char (String c r) = true).
  { revert Os. apply str_all_impl. apply sweep_impl. vm_compute. reflexivity. }
  assert (X2 : str_all (cl " /?#:") (String c r) = true).
  { revert Os. apply str_all_impl. apply sweep_impl. vm_compute. reflexivity. }
  split; [|split; [|split; [|split; [|split]]]].
  - unfold scheme_ok. now rewrite Oc, orb_true_r, X1.
  - clear - Os. induction (String c r) as [|d s IH]; [reflexivity|]. cbn [str_all] in Os. apply andb_true_iff in Os as [O1 O2].
    cbn [lowered]. rewrite (IH O2). f_equal. apply Ascii.eqb_eq. revert O1. revert d. apply sweep_impl. vm_compute. reflexivity.
  - revert X2. now apply cl_no.
  - revert X2. apply cl_sub. charset.
  - exact F.
  - exists c, r. split; [reflexivity|]. apply negb_true_iff. revert Oc. revert c C R F Os X1 X2. clear. intros c _ _ _ _ _ _. revert c. apply sweep_impl. vm_compute. reflexivity.
Qed.
Lemma scheme_out s : scheme_ok s = true -> lowered s <> "file" -> scheme_name (lowered s).
Proof.
  intros O F. split; [|exact F]. destruct s as [|c r]; [discriminate|]. cbn [lowered]. exists (to_lower c), (lowered r). split; [reflexivity|].
  unfold scheme_ok in O. apply andb_true_iff in O as [O1 O2]. split.
  - assert (K : lower_alpha (to_lower c) = true) by (revert O1; clear; revert c; apply sweep_impl; vm_compute; reflexivity).
    unfold lower_alpha, in_range in K. rewrite andb_true_iff, !N.leb_le in K. exact K.
  - cbn [str_all] in O2. apply andb_true_iff in O2 as [_ O2]. clear O1 F. induction r as [|d r IH]; [contradiction|].
    cbn [str_all] in O2. apply andb_true_iff in O2 as [D O2]. intros e [<-|I]; [|now apply IH].
    assert (K : lower_alpha (to_lower d) || in_range 48 57 (to_lower d) || has_char (to_lower d) "+-." = true)
      by (revert D; clear; revert d; apply sweep_impl; vm_compute; reflexivity).
    rewrite !orb_true_iff in K. unfold lower_alpha, in_range in K. rewrite !andb_true_iff, !N.leb_le in K. unfold small. rewrite in_chars. tauto.
Qed.

Lemma break_out s a p : break_slash s = (a, p) -> s = a +:+ p /\ has_char "/" a = false /\ (p = "" \/ exists r, p = String "/" r).
Proof.
  revert a p. induction s as [|c s IH]; intros a p; cbn [break_slash]; [intros X; injection X as <- <-; auto|].
  destruct (Ascii.eqb_spec c "/") as [->|N]; [intros X; injection X as <- <-; split; [reflexivity|split; [reflexivity|right; eauto]]|].
  destruct (break_slash s) as [a' b']. intros X. injection X as <- <-. destruct (IH a' b' eq_refl) as (-> & A & B). split; [reflexivity|]. split; [|exact B].
  cbn [has_char]. rewrite A, orb_false_r. apply Ascii.eqb_neq. congruence.
Qed.
Lemma break_in a p : has_char "/" a = false -> (p = "" \/ exists r, p = String "/" r) -> break_slash (a +:+ p) = (a, p).
Proof.
  intros A P. induction a as [|c a IH]; cbn [String.append].
  - destruct P as [->|[r ->]]; reflexivity.
  - cbn [has_char] in A. apply orb_false_iff in A as [A1 A2]. cbn [break_slash]. rewrite Ascii.eqb_sym, A1, (IH A2). reflexivity.
Qed.
Lemma unbackslash_id s : has_char "\" s = false -> unbackslash s = s.
Proof.
  induction s as [|c s IH]; [reflexivity|]. cbn [has_char unbackslash]. intros X. apply orb_false_iff in X as [X1 X2].
  rewrite Ascii.eqb_sym, X1, (IH X2). reflexivity.
Qed.
Lemma unbackslash_no s : has_char "\" (unbackslash s) = false.
Proof.
  induction s as [|c s IH]; [reflexivity|]. cbn [unbackslash has_char]. rewrite IH, orb_false_r.
  destruct (Ascii.eqb_spec c "\") as [_|N]; [reflexivity|]. apply Ascii.eqb_neq. congruence.
Qed.
Lemma drop_slashes_no c s : has_char c s = false -> has_char c (drop_slashes s) = false.
Proof.
  induction s as [|d s IH]; [auto|]. cbn [drop_slashes]. destruct (Ascii.eqb d "/"); [|auto]. cbn [has_char]. intros X. apply orb_false_iff in X as [_ X]. auto.
Qed.
Lemma break_no c s a p : break_slash s = (a, p) -> has_char c s = false -> has_char c p = false.
Proof. intros E X. apply break_out in E as (-> & _). rewrite has_char_app in X. now apply orb_false_iff in X. Qed.

Lemma segment_iff scheme s : segment scheme s <-> plain_segment s /\ (special scheme -> has_char "\" s = false).
Proof.
  unfold segment, plain_segment. rewrite clean_iff.
  assert (E : str_all (cl " ""<>`#?{}/") s = true <-> str_all (cl ex_path) s = true /\ has_char "/" s = false).
  { split.
    - intros X. split; [revert X; apply cl_sub; charset|revert X; now apply cl_no].
    - intros [X Y]. apply str_all_chars. intros c I. assert (Z := proj1 (str_all_chars _ _) X c I).
      unfold cl in Z |- *. apply andb_true_iff in Z as [Z1 Z2]. rewrite Z1. cbn [andb]. apply negb_true_iff in Z2. apply negb_true_iff.
      change " ""<>`#?{}/" with (ex_path +:+ "/"). rewrite has_char_app, Z2. cbn [orb has_char]. rewrite orb_false_r. apply Ascii.eqb_neq. intros ->. apply in_chars in I. congruence. }
  rewrite E. assert (B : (special scheme -> ~ In "\"%char (chars s)) <-> (special scheme -> has_char "\" s = false)).
  { split; intros X S; specialize (X S); rewrite in_chars in *; [now apply not_true_is_false|congruence]. }
  rewrite B. tauto.
Qed.
Lemma path_cl l : (forall s, In s l -> plain_segment s) -> str_all (cl ex_path) (join "/" l) = true.
Proof.
  induction l as [|s l IH]; intros P; [reflexivity|]. destruct l as [|s' l].
  - cbn [join]. apply P. now left.
  - change (join "/" (s :: s' :: l)) with (s +:+ String "/" (join "/" (s' :: l))). rewrite str_all_app. cbn [str_all].
    rewrite IH by (intros x I; apply P; now right). rewrite (proj1 (P s (or_introl eq_refl))). reflexivity.
Qed.
Lemma join_no c l : Ascii.eqb c "/" = false -> (forall s, In s l -> has_char c s = false) -> has_char c (join "/" l) = false.
Proof.
  intros N. induction l as [|s l IH]; intros P; [reflexivity|]. destruct l as [|s' l].
  - cbn [join]. apply P. now left.
  - change (join "/" (s :: s' :: l)) with (s +:+ String "/" (join "/" (s' :: l))). rewrite has_char_app. cbn [has_char].
    rewrite IH by (intros x I; apply P; now right). rewrite (P s (or_introl eq_refl)), N. reflexivity.
Qed.

Section Whole.
Variables domain ipv6 : string -> option string.
Hypothesis H : hosts_ok domain ipv6.

Definition body (scheme r2 : string) (q f : option string) : option url :=
  let special := mem_str scheme special_schemes in
  if special then
    let (a, p) := break_slash (drop_slashes (unbackslash r2)) in
    match read_authority domain ipv6 scheme true a with
    | Some a => Some (mk_url scheme (Some a) (path_text (segments p)) false q f)
    | None => None
    end
  else match strip_prefix "//" r2 with
  | Some r3 =>
      let (a, p) := break_slash r3 in
      match read_authority domain ipv6 scheme false a with
      | Some a => Some (mk_url scheme (Some a) (if String.eqb p EmptyString then EmptyString else path_text (segments p)) false q f)
      | None => None
      end
  | None =>
      if starts_with "/" r2 then
        let l := segments r2 in
        let hidden := match l with EmptyString :: _ :: _ => "/." | _ => EmptyString end in
        Some (mk_url scheme None (hidden +:+ path_text l) false q f)
      else Some (mk_url scheme None (pct in_controls r2) true q f)
  end.
Lemma web_parse_body s : web_parse domain ipv6 s =
  match split_once ":" (drop_tabs (trim_right (trim_left s))) with
  | None => None
  | Some (sch, r) =>
      if negb (scheme_ok sch) || String.eqb (lowered sch) "file" then None
      else
        let (r1, f) := split_opt "#" r in
        let (r2, q) := split_opt "?" r1 in
        body (lowered sch) r2 (option_map (pct (in_query (mem_str (lowered sch) special_schemes))) q) (option_map (pct in_fragment) f)
  end.
Proof.
  unfold web_parse, body. destruct (split_once ":" _) as [[sch r]|]; [|reflexivity]. destruct (negb _ || _); [reflexivity|].
  destruct (split_opt "#" r) as [r1 f]. destruct (split_opt "?" r1) as [r2 q]. destruct (mem_str (lowered sch) special_schemes); reflexivity.
Qed.

Lemma plain_of scheme l : (forall s, In s l -> segment scheme s) -> forall s, In s l -> plain_segment s.
Proof. intros X s I. apply X in I. now apply segment_iff in I. Qed.

(** What precedes the query is read as it is. *)
Lemma body_in u : normal domain ipv6 u -> forall b,
  b = match u_auth u with Some a => "//" +:+ a | None => "" end +:+ u_path u ->
  str_all (cl "#?") b = true /\ (u_query u = None -> u_frag u = None -> trim_right b = b)
  /\ body (u_scheme u) b (u_query u) (u_frag u) = Some u.
Proof.
  destruct u as [scheme au p o q f]. cbn [u_scheme u_auth u_path u_opaque u_query u_frag]. unfold normal. cbn [u_scheme u_auth u_path u_opaque u_query u_frag].
  intros (_ & _ & _ & [(a & -> & A & -> & Sp & P)|[(-> & Ns & -> & l & p' & (N & S & ->) & P)|(-> & Ns & -> & C & Hd & Tl)]]) b ->.
  - assert (A' := authority_cl domain ipv6 H scheme a A).
    assert (Sl : has_char "/" a = false) by (revert A'; now apply cl_no).
    assert (Ps : p = "" \/ exists r, p = String "/" r) by (destruct P as [->|(l & _ & _ & ->)]; [now left|right; eexists; reflexivity]).
    assert (Pc : str_all (cl ex_path) p = true).
    { destruct P as [->|(l & N & S & ->)]; [reflexivity|]. cbn [String.append str_all]. rewrite (path_cl l (plain_of scheme l S)). reflexivity. }
    assert (Bc : str_all (cl " #?") (("//" +:+ a) +:+ p) = true).
    { rewrite !str_all_app, !andb_true_iff. split; [split; [reflexivity|revert A'; apply cl_sub; charset]|revert Pc; apply cl_sub; charset]. }
    split; [revert Bc; apply cl_sub; charset|]. split; [intros _ _; apply trim_id; revert Bc; apply cl_sub; charset|].
    unfold body. destruct (mem_str scheme special_schemes) eqn:M.
    + apply special_iff in M. destruct (Sp M) as [Pn An].
      assert (Bs : has_char "\" (("//" +:+ a) +:+ p) = false).
      { rewrite !has_char_app, !orb_false_iff. split; [split; [reflexivity|revert A'; now apply cl_no]|].
        destruct P as [->|(l & N & S & ->)]; [reflexivity|]. cbn [String.append has_char]. rewrite join_no; [reflexivity|reflexivity|].
        intros s I. apply S in I. apply segment_iff in I. now apply I. }
      rewrite (unbackslash_id _ Bs).
      assert (D : drop_slashes (("//" +:+ a) +:+ p) = a +:+ p).
      { cbn [String.append drop_slashes]. change (Ascii.eqb "/" "/") with true. cbv iota. destruct a as [|c a]; [congruence|]. cbn [String.append drop_slashes].
        cbn [has_char] in Sl. apply orb_false_iff in Sl as [Sl _]. rewrite Ascii.eqb_sym, Sl. reflexivity. }
      rewrite D, (break_in a p Sl Ps). assert (X := authority_in domain ipv6 H scheme a A (fun _ => An)). rewrite (proj2 (special_iff scheme) M) in X. rewrite X.
      destruct P as [->|(l & N & S & ->)]; [congruence|]. change ("/" +:+ join "/" l) with (path_text l).
      rewrite (segments_plain l N (plain_of scheme l S)). reflexivity.
    + apply special_false in M. rewrite sapp_assoc, strip_prefix_app, (break_in a p Sl Ps).
      assert (X := authority_in domain ipv6 H scheme a A (fun S => False_ind _ (M S))). rewrite (proj2 (special_false scheme) M) in X. rewrite X.
      destruct P as [->|(l & N & S & ->)]; [reflexivity|]. change ("/" +:+ join "/" l) with (path_text l).
      rewrite (segments_plain l N (plain_of scheme l S)). reflexivity.
  - assert (Pl := plain_of scheme l S). assert (Jc := path_cl l Pl). cbn [String.append].
    assert (Pc : str_all (cl ex_path) p = true).
    { destruct P as [[_ ->]|[_ ->]]; cbn [String.append str_all]; rewrite Jc; reflexivity. }
    split; [revert Pc; apply cl_sub; charset|]. split; [intros _ _; apply trim_id; revert Pc; apply cl_sub; charset|].
    unfold body. rewrite (proj2 (special_false scheme) Ns). destruct P as [[Nl ->]|[(s & r & ->) ->]].
    + assert (X : strip_prefix "//" ("/" +:+ join "/" l) = None).
      { cbn [String.append strip_prefix]. change (Ascii.eqb "/" "/") with true. cbv iota. destruct l as [|s r]; [congruence|].
        destruct s as [|c s]; [destruct r as [|s' r]; [reflexivity|exfalso; now apply (Nl s' r)]|].
        assert (Sc : has_char "/" (String c s) = false) by (apply Pl; now left). cbn [has_char] in Sc. apply orb_false_iff in Sc as [Sc _].
        destruct r as [|s' r]; [cbn [join]|change (join "/" (String c s :: s' :: r)) with (String c s +:+ String "/" (join "/" (s' :: r)))];
          cbn [String.append]; now rewrite Sc. }
      rewrite X. change ("/" +:+ join "/" l) with (path_text l). change (starts_with "/" (path_text l)) with true. cbv iota.
      rewrite (segments_plain l N Pl). f_equal. f_equal. destruct l as [|s r]; [congruence|]. destruct s as [|c s]; [|reflexivity].
      destruct r as [|s' r]; [reflexivity|]. exfalso. now apply (Nl s' r).
    + change ("/." +:+ "/" +:+ join "/" ("" :: s :: r)) with (path_text ("." :: "" :: s :: r)).
      change (strip_prefix "//" (path_text ("." :: "" :: s :: r))) with (@None string). change (starts_with "/" (path_text ("." :: "" :: s :: r))) with true. cbv iota.
      assert (X : segments (path_text ("." :: "" :: s :: r)) = "" :: s :: r).
      { assert (Y : split_all "/" (join "/" ("." :: "" :: s :: r)) = "." :: "" :: s :: r).
        { apply split_join_slash; [discriminate|]. intros x [<-|I]; [reflexivity|]. now apply Pl. }
        unfold segments, path_text. change ("/" +:+ ?x) with (String "/" x). cbv iota beta. rewrite Y.
        change (walk [] ("." :: "" :: s :: r)) with (walk [] ("" :: s :: r)). now rewrite walk_plain. }
      rewrite X. reflexivity.
  - cbn [String.append]. apply clean_iff in C. split; [revert C; apply cl_sub; charset|]. split.
    { intros Eq Ef. apply trim_last; [revert C; apply cl_sub; intros c; discriminate|]. now apply Tl. }
    unfold body. rewrite (proj2 (special_false scheme) Ns).
    assert (X : starts_with "/" p = false).
    { destruct (starts_with "/" p) eqn:E; [|reflexivity]. apply starts_with_iff in E as [r ->]. now elim (Hd r). }
    assert (Y : strip_prefix "//" p = None).
    { destruct (strip_prefix "//" p) as [r|] eqn:E; [|reflexivity]. apply strip_prefix_some in E. subst p. discriminate. }
    rewrite X, Y, pct_clean; [reflexivity|]. rewrite (str_all_eq _ _ p ctrl_set). revert C. apply cl_sub. intros c; discriminate.
Qed.

Lemma query_cl scheme q : query_text scheme q -> str_all (cl (ex_query (mem_str scheme special_schemes))) q = true.
Proof.
  intros [C S]. apply clean_iff in C. destruct (mem_str scheme special_schemes) eqn:M; [|exact C].
  apply special_iff in M. specialize (S M). rewrite in_chars in S. apply not_true_is_false in S.
  apply str_all_chars. intros c I. assert (Z := proj1 (str_all_chars _ _) C c I). unfold cl in Z |- *. apply andb_true_iff in Z as [Z1 Z2]. rewrite Z1. cbn [andb].
  apply negb_true_iff in Z2. apply negb_true_iff. change (ex_query true) with (" ""#<>" +:+ "'"). rewrite has_char_app, Z2. cbn [orb has_char]. rewrite orb_false_r.
  apply Ascii.eqb_neq. intros ->. apply in_chars in I. congruence.
Qed.
Lemma query_pct scheme q : query_text scheme (pct (in_query (mem_str scheme special_schemes)) q).
Proof.
  assert (X : str_all (cl (ex_query (mem_str scheme special_schemes))) (pct (in_query (mem_str scheme special_schemes)) q) = true).
  { apply pct_cl; [apply query_set|]. destruct (mem_str scheme special_schemes); apply hexes_ok; vm_compute; reflexivity. }
  split.
  - apply clean_iff. revert X. apply cl_sub. destruct (mem_str scheme special_schemes); charset.
  - intros S. apply special_iff in S. rewrite S in X |- *. rewrite in_chars. rewrite (cl_no (ex_query true) "'" _ eq_refl X). discriminate.
Qed.

Lemma web_in u : normal domain ipv6 u -> web_parse domain ipv6 (url_str u) = Some u.
Proof.
  intros Nu. assert (Nu' := Nu). destruct Nu as (Sn & Q & F & _).
  destruct (scheme_in _ Sn) as (S1 & S2 & S3 & S4 & S5 & c0 & r0 & S6 & S7).
  set (b := match u_auth u with Some a => "//" +:+ a | None => "" end +:+ u_path u).
  set (qt := match u_query u with Some q => String "?" q | None => "" end).
  set (ft := match u_frag u with Some f => String "#" f | None => "" end).
  destruct (body_in u Nu' b eq_refl) as (B1 & B2 & B3).
  assert (E : url_str u = u_scheme u +:+ String ":" ((b +:+ qt) +:+ ft)).
  { unfold url_str, b, qt, ft. now rewrite !sapp_assoc. }
  assert (Qc : str_all (cl " #") qt = true).
  { unfold qt. destruct (u_query u) as [q|]; [|reflexivity]. cbn [str_all]. specialize (Q q eq_refl). apply query_cl in Q.
    change (cl " #" "?") with true. cbn [andb]. revert Q. apply cl_sub. destruct (mem_str _ _); charset. }
  assert (Fc : str_all (cl " ") ft = true).
  { unfold ft. destruct (u_frag u) as [f|]; [|reflexivity]. cbn [str_all]. specialize (F f eq_refl). apply clean_iff in F.
    change (cl " " "#") with true. cbn [andb]. revert F. apply cl_sub. charset. }
  assert (All : str_all (cl "") (url_str u) = true).
  { assert (W : forall ex s, str_all (cl ex) s = true -> str_all (cl "") s = true) by (intros ex s; apply cl_sub; intros c; discriminate).
    rewrite E, str_all_app. cbn [str_all]. rewrite !str_all_app, (W _ _ S4), (W _ _ B1), (W _ _ Qc), (W _ _ Fc). reflexivity. }
  assert (T : trim_right (trim_left (url_str u)) = url_str u).
  { assert (L : trim_left (url_str u) = url_str u).
    { rewrite E, S6. cbn [String.append trim_left]. now rewrite S7. }
    rewrite L, E. apply trim_app; [discriminate|]. change (String ":" ?x) with (":" +:+ x).
    assert (Y : (b +:+ qt) +:+ ft = "" \/ trim_right ((b +:+ qt) +:+ ft) = (b +:+ qt) +:+ ft /\ (b +:+ qt) +:+ ft <> "").
    { unfold ft in *. destruct (u_frag u) as [f|].
      - right. split; [apply trim_app; [discriminate|now apply trim_id]|]. destruct (b +:+ qt); discriminate.
      - rewrite sapp_nil_r. unfold qt in *. destruct (u_query u) as [q|].
        + right. split; [apply trim_app; [discriminate|]|destruct b; discriminate]. apply trim_id. revert Qc. apply cl_sub. charset.
        + rewrite sapp_nil_r. destruct (String.eqb_spec b "") as [->|Nb]; [now left|right]. split; [now apply B2|exact Nb]. }
    destruct Y as [->|[Y1 Y2]]; [reflexivity|]. now apply trim_app. }
  rewrite web_parse_body, T, (drop_id _ All), E.
  rewrite (proj2 (split_once_some ":" _ _ _) (conj eq_refl S3)), S1, S2.
  replace (String.eqb (u_scheme u) "file") with false by (symmetry; now apply String.eqb_neq). cbn [negb orb].
  assert (X1 : split_opt "#" ((b +:+ qt) +:+ ft) = (b +:+ qt, u_frag u)).
  { assert (Nh : has_char "#" (b +:+ qt) = false) by (rewrite has_char_app, (cl_no "#?" "#" b eq_refl B1), (cl_no " #" "#" qt eq_refl Qc); reflexivity).
    unfold ft. destruct (u_frag u) as [f|]; [now apply split_opt_at|]. rewrite sapp_nil_r. now apply split_opt_none. }
  assert (X2 : split_opt "?" (b +:+ qt) = (b, u_query u)).
  { assert (Nh := cl_no "#?" "?" b eq_refl B1). unfold qt. destruct (u_query u) as [q|]; [now apply split_opt_at|]. rewrite sapp_nil_r. now apply split_opt_none. }
  rewrite X1, X2.
  assert (X3 : option_map (pct (in_query (mem_str (u_scheme u) special_schemes))) (u_query u) = u_query u).
  { destruct (u_query u) as [q|]; [|reflexivity]. cbn [option_map]. f_equal. apply pct_clean. rewrite (str_all_eq _ _ q (query_set _)). apply query_cl. now apply Q. }
  assert (X4 : option_map (pct in_fragment) (u_frag u) = u_frag u).
  { destruct (u_frag u) as [f|]; [|reflexivity]. cbn [option_map]. f_equal. apply pct_clean. rewrite (str_all_eq _ _ f frag_set). apply (clean_iff ex_fragment). now apply F. }
  rewrite X3, X4. exact B3.
Qed.

Lemma web_out s u : web_parse domain ipv6 s = Some u -> normal domain ipv6 u.
Proof.
  rewrite web_parse_body. set (T := drop_tabs (trim_right (trim_left s))).
  assert (Tl : forall r, T <> r +:+ " ").
  { intros r. apply drop_last; [apply trim_out|]. intros r' c Hc. apply trim_tab. revert Hc. revert c. apply sweep_impl. vm_compute. reflexivity. }
  destruct (split_once ":" T) as [[sch r]|] eqn:E; [|discriminate]. apply split_once_some in E as [Et _].
  destruct (negb (scheme_ok sch) || String.eqb (lowered sch) "file") eqn:O; [discriminate|].
  apply orb_false_iff in O as [O1 O2]. apply negb_false_iff in O1. apply String.eqb_neq in O2.
  assert (Sn := scheme_out sch O1 O2). destruct (split_opt "#" r) as [r1 f] eqn:E1. destruct (split_opt "?" r1) as [r2 q] eqn:E2.
  apply split_opt_out in E1 as [N1 E1]. apply split_opt_out in E2 as [N2 E2].
  assert (N3 : has_char "#" r2 = false) by (rewrite E2, has_char_app in N1; now apply orb_false_iff in N1).
  set (scheme := lowered sch) in *. clearbody scheme.
  assert (Qo : forall q', option_map (pct (in_query (mem_str scheme special_schemes))) q = Some q' -> query_text scheme q').
  { intros q'. destruct q as [q0|]; [|discriminate]. cbn [option_map]. intros X. injection X as <-. apply query_pct. }
  assert (Fo : forall f', option_map (pct in_fragment) f = Some f' -> clean ex_fragment f').
  { intros f'. destruct f as [f0|]; [|discriminate]. cbn [option_map]. intros X. injection X as <-. apply clean_iff. apply pct_cl; [exact frag_set|apply hexes_ok; vm_compute; reflexivity]. }
  assert (Seg : forall p, (special scheme -> has_char "\" p = false) -> path_of scheme (segments p) (path_text (segments p))).
  { intros p Bp. destruct (segments_out p) as [A B]. split; [exact A|]. split; [|reflexivity]. intros x I. apply segment_iff. split; [now apply B|].
    intros Sp. specialize (Bp Sp). revert x I. unfold segments. apply walk_no; [reflexivity| |contradiction].
    apply split_all_has. destruct p as [|c p]; [reflexivity|]. cbn [has_char] in Bp. now apply orb_false_iff in Bp. }
  unfold body. destruct (mem_str scheme special_schemes) eqn:M.
  - destruct (break_slash (drop_slashes (unbackslash r2))) as [a p] eqn:Br. destruct (read_authority domain ipv6 scheme true a) as [a'|] eqn:A; [|discriminate].
    intros X. injection X as <-. rewrite <- M in A. apply (authority_out domain ipv6 H) in A as [A1 A2]. unfold normal. cbn [u_scheme u_auth u_path u_opaque u_query u_frag].
    split; [exact Sn|]. split; [exact Qo|]. split; [exact Fo|]. left. exists a'. split; [reflexivity|]. split; [exact A1|]. split; [reflexivity|].
    split; [intros Sp; split; [discriminate|now apply A2]|]. right. exists (segments p). apply Seg. intros _.
    apply (break_no "\" _ a p Br). apply drop_slashes_no. apply unbackslash_no.
  - assert (Ns := proj1 (special_false scheme) M). destruct (strip_prefix "//" r2) as [r3|] eqn:St.
    + destruct (break_slash r3) as [a p] eqn:Br. destruct (read_authority domain ipv6 scheme false a) as [a'|] eqn:A; [|discriminate].
      intros X. injection X as <-. rewrite <- M in A. apply (authority_out domain ipv6 H) in A as [A1 A2]. unfold normal. cbn [u_scheme u_auth u_path u_opaque u_query u_frag].
      split; [exact Sn|]. split; [exact Qo|]. split; [exact Fo|]. left. exists a'. split; [reflexivity|]. split; [exact A1|]. split; [reflexivity|].
      split; [intros Sp; contradiction|]. destruct (String.eqb p ""); [now left|]. right. exists (segments p). apply Seg. intros Sp. contradiction.
    + destruct (starts_with "/" r2) eqn:Sw.
      * intros X. injection X as <-. unfold normal. cbn [u_scheme u_auth u_path u_opaque u_query u_frag].
        split; [exact Sn|]. split; [exact Qo|]. split; [exact Fo|]. right. left. split; [reflexivity|]. split; [exact Ns|]. split; [reflexivity|].
        exists (segments r2), (path_text (segments r2)). split; [apply Seg; intros Sp; contradiction|].
        destruct (segments r2) as [|[|c x] [|y z]]; try (left; split; [discriminate|reflexivity]). right. split; [now exists y, z|reflexivity].
      * intros X. injection X as <-. unfold normal. cbn [u_scheme u_auth u_path u_opaque u_query u_frag].
        split; [exact Sn|]. split; [exact Qo|]. split; [exact Fo|]. right. right. split; [reflexivity|]. split; [exact Ns|]. split; [reflexivity|]. split; [|split].
        -- apply clean_iff. apply pct_out; [|apply hexes_ok; vm_compute; reflexivity]. intros c Cc. unfold cl. rewrite Cc. cbn [negb andb has_char].
           destruct (Ascii.eqb_spec c "?") as [->|_]; [now right|]. destruct (Ascii.eqb_spec c "#") as [->|_]; [now right|]. now left.
        -- intros t Et'. cbn [String.append] in Et'. destruct (pct_inv _ _ _ _ Et') as [(t' & -> & _ & _)|(d & t' & _ & _ & D & _)]; [discriminate|discriminate].
        -- intros Q0 F0 t Pt. destruct q; [discriminate|]. destruct f; [discriminate|]. apply pct_end in Pt as [t' Pt].
           apply (Tl (sch +:+ String ":" t')). rewrite Et, E1, E2, Pt, !sapp_nil_r, !sapp_assoc. reflexivity.
Qed.
End Whole.

(* ------------------------------------------------------------ statements *)
(** C112: reading and writing URLs: with a host reader as the standard describes it, what is read from any text is a
    URL in normal form, and every URL in normal form is written as a text that is read as that URL. *)
Lemma c112_normal_pf :
  forall domain ipv6 : string -> option string, hosts_ok domain ipv6 ->
    (forall s u, web_parse domain ipv6 s = Some u -> normal domain ipv6 u)
    /\ (forall u, normal domain ipv6 u -> web_parse domain ipv6 (url_str u) = Some u).
Proof.
  intros domain ipv6 H. split; [exact (web_out domain ipv6 H)|exact (web_in domain ipv6 H)].
Qed.

(** C112: what was read is written as ASCII text that is read as the same URL; two URLs that were read are the same
    when they are written the same. *)
Lemma c112_reread_pf :
  forall domain ipv6 : string -> option string, hosts_ok domain ipv6 ->
    forall s u, web_parse domain ipv6 s = Some u ->
      web_parse domain ipv6 (url_str u) = Some u
      /\ (forall c, In c (chars (url_str u)) -> (32 <= byte c <= 126)%N)
      /\ utf8_valid (url_str u) = true
      /\ (forall s' u', web_parse domain ipv6 s' = Some u' -> url_str u' = url_str u -> u' = u).
Proof.
  intros domain ipv6 H s u E. apply (web_out domain ipv6 H) in E. assert (R := web_in domain ipv6 H u E). split; [exact R|].
  assert (A : str_all (cl "") (url_str u) = true).
  { destruct (body_in domain ipv6 H u E _ eq_refl) as (B & _ & _). destruct E as (Sn & Q & F & _).
    destruct (scheme_in _ Sn) as (_ & _ & _ & S & _).
    assert (W : forall ex s, str_all (cl ex) s = true -> str_all (cl "") s = true) by (intros ex s0; apply cl_sub; intros c; discriminate).
    unfold url_str. rewrite !str_all_app. rewrite str_all_app in B. apply andb_true_iff in B as [B1 B2] || idtac.
    rewrite (W _ _ S). cbn [andb].
    assert (B' : str_all (cl "") (match u_auth u with Some a => "//" +:+ a | None => "" end) = true /\ str_all (cl "") (u_path u) = true) by (split; [now apply (W "#?")|now apply (W "#?")]).
    destruct B' as [-> ->]. cbn [andb]. apply andb_true_iff. split; [|destruct (u_query u) as [q|], (u_frag u) as [f|]].
    all: try reflexivity.
    all: rewrite ?andb_true_iff; cbn [str_all].
    - split; [apply (W " ""#<>"), clean_iff, (proj1 (Q q eq_refl))|apply (W ex_fragment), clean_iff, (F f eq_refl)].
    - split; [apply (W " ""#<>"), clean_iff, (proj1 (Q q eq_refl))|reflexivity].
    - split; [reflexivity|apply (W ex_fragment), clean_iff, (F f eq_refl)]. }
  split; [|split].
  - intros c I. apply (proj1 (str_all_chars _ _) A) in I. rewrite <- ctrl_set in I. apply negb_true_iff in I. now apply controls_iff.
  - apply utf8_ascii. revert A. apply str_all_impl. apply sweep_impl. vm_compute. reflexivity.
  - intros s' u' E' W. apply (web_out domain ipv6 H) in E'. apply (web_in domain ipv6 H) in E'. rewrite W, R in E'. congruence.
Qed.

(* a host reader *)
Definition plain_host (c : ascii) : bool := in_range 97 122 c || in_range 48 57 c || has_char c "-.".
Definition toy_domain (s : string) : option string :=
  let d := lowered s in if negb (String.eqb d "") && str_all plain_host d then Some d else None.
Definition toy_ipv6 (s : string) : option string := if String.eqb s "::1" then Some s else None.
Lemma toy_hosts : hosts_ok toy_domain toy_ipv6.
Proof.
  split.
  - intros s d. unfold toy_domain. destruct (negb (String.eqb (lowered s) "") && str_all plain_host (lowered s)) eqn:E; [|discriminate].
    intros X. injection X as <-. apply andb_true_iff in E as [E1 E2]. apply negb_true_iff in E1.
    assert (L : lowered (lowered s) = lowered s).
    { clear. induction s as [|c s IH]; [reflexivity|]. cbn [lowered]. rewrite IH. f_equal. apply Ascii.eqb_eq.
      assert (K : forallb (fun c => Ascii.eqb (to_lower (to_lower c)) (to_lower c)) all_ascii = true) by (vm_compute; reflexivity).
      exact (proj1 (forallb_forall _ _) K c (all_ascii_in c)). }
    rewrite L, E1, E2. split; [reflexivity|]. split; [now apply String.eqb_neq|]. apply clean_iff. revert E2. apply str_all_impl. apply sweep_impl. vm_compute. reflexivity.
  - intros s a. unfold toy_ipv6. destruct (String.eqb_spec s "::1") as [->|_]; [|discriminate]. intros X. injection X as <-. split; [reflexivity|].
    intros c I. cbn in I. destruct I as [<-|[<-|[<-|[]]]]; [now left|now left|right; left; vm_compute; split; discriminate].
Qed.
Example c112_normal_ex :
  hosts_ok toy_domain toy_ipv6
  /\ option_map url_str (web_parse toy_domain toy_ipv6 " HTTP:\\Me:@V.Example:080\a\..\b c?q'#f g") = Some "http://Me@v.example/b%20c?q%27#f%20g"
  /\ option_map url_str (web_parse toy_domain toy_ipv6 "openid4vp://") = Some "openid4vp://"
  /\ option_map url_str (web_parse toy_domain toy_ipv6 "https://[::1]:8443/./x?") = Some "https://[::1]:8443/x?"
  /\ option_map url_str (web_parse toy_domain toy_ipv6 "web:/..//x") = Some "web:/.//x"
  /\ option_map url_str (web_parse toy_domain toy_ipv6 "did:web:v.example") = Some "did:web:v.example"
  /\ web_parse toy_domain toy_ipv6 "https://" = None /\ web_parse toy_domain toy_ipv6 "v.example" = None.
Proof. split; [exact toy_hosts|]. vm_compute. repeat split. Qed.
Example c112_reread_ex :
  exists u u', web_parse toy_domain toy_ipv6 "https://v.example:443/a/../request" = Some u
    /\ web_parse toy_domain toy_ipv6 "HTTPS:v.example/request" = Some u' /\ url_str u' = url_str u /\ url_str u = "https://v.example/request".
Proof.
  exists (mk_url "https" (Some "v.example") "/request" false None None), (mk_url "https" (Some "v.example") "/request" false None None).
  vm_compute. repeat split.
Qed.
