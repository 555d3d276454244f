From Coq Require Import Lia ZArith.
From Verif Require Import Base BaseFacts Utf8 Utf8Facts JsonText JsonTextFacts Base64Facts UrlEncoded UrlEncodedFacts Url Effects
  WebUrl SpecWebUrl PfWebUrl PfWebReads WebJoin SpecHttpUri SpecReqwest SpecWebJoin.

Lemma scheme_word_iff s : scheme_word (lowered s) <-> scheme_ok s = true.
Proof.
  split.
  - intros (c & r & E & C & R). destruct s as [|d s]; [discriminate|]. cbn [lowered] in E. injection E as E1 E2. unfold scheme_ok.
    assert (K : forall d, lower_alpha (to_lower d) || in_range 48 57 (to_lower d) || has_char (to_lower d) "+-." = true -> scheme_char d = true) by (apply sweep_impl; vm_compute; reflexivity).
    assert (K1 : forall d, lower_alpha (to_lower d) = true -> upper_alpha d || lower_alpha d = true) by (apply sweep_impl; vm_compute; reflexivity).
    assert (C' : lower_alpha (to_lower d) = true) by (rewrite E1; unfold lower_alpha, in_range; unfold small in C; rewrite andb_true_iff, !N.leb_le; exact C).
    rewrite (K1 d C'). cbn [andb str_all]. rewrite (K d) by (now rewrite C'). cbn [andb]. rewrite <- E2 in R. clear - R K.
    induction s as [|e s IH]; [reflexivity|]. cbn [lowered] in R. cbn [str_all]. rewrite (K e), IH; [reflexivity| |].
    + intros x I. apply R. now right.
    + specialize (R (to_lower e) (or_introl eq_refl)). rewrite !orb_true_iff. unfold lower_alpha, in_range. rewrite !andb_true_iff, !N.leb_le. unfold small in R. rewrite in_chars in R. tauto.
  - intros O. destruct (string_dec (lowered s) "file") as [E|N]; [|exact (proj1 (scheme_out s O N))].
    rewrite E. exists "f"%char, "ile". split; [reflexivity|]. split; [unfold small; cbn; lia|]. intros d I. left. unfold small.
    destruct I as [<-|[<-|[<-|[]]]]; cbn; lia.
Qed.
Lemma with_scheme_iff t s r : with_scheme t s r <-> exists sch, split_once ":" t = Some (sch, r) /\ scheme_ok sch = true /\ lowered sch = s.
Proof.
  split.
  - intros (sch & E & N & L & W). exists sch. apply no_char in N. apply letters_iff in L. subst s. apply scheme_word_iff in W. split; [|now split].
    apply split_once_some. now split.
  - intros (sch & E & O & <-). exists sch. apply split_once_some in E as [E N]. split; [exact E|]. split; [now apply no_char|]. split; [now apply letters_iff|now apply scheme_word_iff].
Qed.
Lemma slash_char c : In c (chars "/\") <-> (if Ascii.eqb c "\" then "/"%char else c) = "/"%char.
Proof.
  destruct (Ascii.eqb_spec c "\") as [->|N]; split; intros X; try reflexivity.
  - right. now left.
  - destruct X as [<-|[<-|[]]]; [reflexivity|contradiction].
  - left. congruence.
Qed.
Lemma slashed_iff r : slashed r <-> two_slashes r = true.
Proof.
  unfold two_slashes. split.
  - intros (c & d & x & -> & C & D). apply slash_char in C, D. cbn [unbackslash]. rewrite C, D. reflexivity.
  - intros S. apply starts_with_iff in S as [y S]. destruct r as [|c [|d x]]; [discriminate|discriminate|]. cbn [unbackslash String.append] in S. injection S as S1 S2 _.
    exists c, d, x. split; [reflexivity|]. split; now apply slash_char.
Qed.
Lemma slashed_not r : ~ slashed r <-> two_slashes r = false.
Proof. rewrite slashed_iff. destruct (two_slashes r); split; congruence. Qed.
Lemma cut_iff x l : cut x l <-> split_all "/" x = l.
Proof.
  split.
  - intros (N & -> & A). apply split_join_slash; [exact N|]. intros s I. now apply no_char, A.
  - intros <-. split; [apply split_all_nonempty|]. split; [symmetry; apply (join_split "/")|]. intros s I. apply no_char. now apply (split_all_no "/" x).
Qed.
Lemma dots_mem s : existsb (String.eqb s) dots = true <-> In s dots.
Proof.
  rewrite existsb_exists. split; [intros (x & I & E); apply String.eqb_eq in E; now subst|]. intros I. exists s. split; [exact I|]. apply String.eqb_refl.
Qed.
Lemma leads_iff dir l p : l <> [] -> leads dir l p <-> path_text (walk (rev dir) l) = p.
Proof.
  intros N. unfold leads, path_text. split.
  - intros (to & V & ->). f_equal. f_equal. apply (walk_visits l dir _ N). exists to. split; [exact V|].
    destruct (existsb (String.eqb (last l "")) dots) eqn:E; [left; split; [now apply dots_mem|reflexivity]|right]. split; [|reflexivity].
    intros I. apply dots_mem in I. congruence.
  - intros <-. destruct (proj1 (walk_visits l dir _ N) eq_refl) as (to & V & D). exists to. split; [exact V|]. f_equal. f_equal.
    destruct D as [[I ->]|[I ->]]; [apply dots_mem in I; now rewrite I|]. destruct (existsb (String.eqb (last l "")) dots) eqn:E; [|reflexivity]. apply dots_mem in E. contradiction.
Qed.

Section Join.
Variables domain ipv6 : string -> option string.
Lemma unbackslash_nil b : unbackslash b = "" <-> b = "".
Proof. split; [destruct b; [reflexivity|discriminate]|now intros ->]. Qed.
Lemma means_iff base r u x0 : special (u_scheme base) -> u_path base = "/" +:+ x0 ->
  relative domain ipv6 base r = Some u <-> means domain ipv6 base r u.
Proof.
  intros Sp Hp. unfold relative, means. destruct (two_slashes r) eqn:T.
  - rewrite c112_reads_pf. split; [intros R; left; split; [now apply slashed_iff|exact R]|]. intros [[_ R]|[N _]]; [exact R|]. elim N. now apply slashed_iff.
  - assert (N := proj2 (slashed_not r) T). split.
    + destruct (split_opt "#" r) as [r1 f] eqn:E1. destruct (split_opt "?" r1) as [b q] eqn:E2. apply split_tail_iff in E1 as [E1 N1], E2 as [E2 N2].
      intros X. injection X as <-. right. split; [exact N|]. exists b, (unbackslash b), q, f. split; [rewrite E1, E2, sapp_assoc; reflexivity|]. split; [now apply slashes_iff|].
      split; [now apply no_char|]. split; [apply no_char; now rewrite <- E2|]. cbn [u_scheme u_auth u_opaque u_frag u_query u_path]. split; [reflexivity|]. split; [reflexivity|]. split; [reflexivity|]. split.
      { destruct f as [f|]; cbn [option_map]; [now apply escaped_fragment|exact I]. }
      split.
      { destruct q as [q|]; [exists (pct (in_query true) q); split; [reflexivity|]; now apply (escaped_iff (in_query true) " ""#<>'" q _ (query_set true))|].
        destruct (String.eqb_spec (unbackslash b) "") as [Z|Z]; split; intros Y; try reflexivity; rewrite unbackslash_nil in Z; contradiction. }
      destruct (String.eqb_spec (unbackslash b) "") as [Z|Z]; rewrite unbackslash_nil in Z; [left; now split|]. destruct (starts_with "/" (unbackslash b)) eqn:W.
      * right. left. apply starts_with_iff in W as [x W]. exists x, (split_all "/" x). split; [exact W|]. split; [now apply cut_iff|].
        apply (leads_iff [] _ _ (split_all_nonempty "/" x)). unfold segments. now rewrite W.
      * right. right. split; [exact Z|]. split; [now apply starts_slash|]. exists x0, (split_all "/" x0), (split_all "/" (unbackslash b)).
        split; [exact Hp|]. split; [now apply cut_iff|]. split; [now apply cut_iff|]. apply leads_iff; [apply split_all_nonempty|]. rewrite rev_removelast. unfold path_segments. now rewrite Hp.
    + intros [[Y _]|(_ & b & b' & q & f & Er & Sl & N2 & N1 & Us & Ua & Uo & F & Q & P)]; [contradiction|].
      apply no_char in N1, N2. apply slashes_iff in Sl. subst b'. rewrite Er, <- sapp_assoc, (split_tail "#" _ f N1), (split_tail "?" b q N2). f_equal. symmetry. apply url_eta; auto.
      * destruct P as [[-> P]|[(x & l & W & C & L)|(Nb & W & x & here & l & B & C1 & C2 & L)]].
        -- exact P.
        -- rewrite W. change (String.eqb ("/" +:+ x) "") with false. change (starts_with "/" ("/" +:+ x)) with true. cbv iota. apply cut_iff in C. subst l.
           apply (leads_iff [] _ _ (split_all_nonempty "/" x)) in L. symmetry. exact L.
        -- assert (Z : unbackslash b <> "") by (intros Z; apply Nb; now apply unbackslash_nil). apply String.eqb_neq in Z. rewrite Z. apply starts_slash in W. rewrite W.
           apply cut_iff in C1, C2. subst here l. apply (leads_iff _ _ _ (split_all_nonempty "/" (unbackslash b))) in L. rewrite rev_removelast in L. unfold path_segments. rewrite B. symmetry. exact L.
      * destruct q as [q|].
        -- destruct Q as (q' & -> & Q). f_equal. symmetry. now apply (escaped_iff (in_query true) " ""#<>'" q q' (query_set true)).
        -- destruct (String.eqb_spec (unbackslash b) "") as [Z|Z]; rewrite unbackslash_nil in Z; now apply Q.
      * destruct f as [f|], (u_frag u) as [f'|]; try contradiction; [|reflexivity]. cbn [option_map]. f_equal. symmetry. now apply escaped_fragment.
Qed.
End Join.

(** C114: what a reference found at a web URL means: it is accepted, and means a URL, exactly when the URL standard says so. *)
Lemma c114_resolves_pf :
  forall (domain ipv6 : string -> option string) (base : url), special (u_scheme base) -> (exists x, u_path base = "/" +:+ x) ->
    forall s u, web_join domain ipv6 base s = Some u <-> resolves domain ipv6 base s u.
Proof.
  intros domain ipv6 base Sp [x Hp] s u. unfold web_join, resolves. assert (M := proj2 (special_iff _) Sp). rewrite M.
  set (t := drop_tabs (trim_right (trim_left s))).
  assert (K : forall P : string -> Prop, (exists t', stripped s t' /\ P t') <-> P t).
  { intros P. split; [intros (t' & S & Q); apply stripped_iff in S; fold t in S; now subst t'|]. intros Q. exists t. split; [now apply stripped_iff|exact Q]. }
  rewrite (K (fun t => absolute (u_scheme base) t /\ reads domain ipv6 s u \/ exists r, reference (u_scheme base) t r /\ means domain ipv6 base r u)). clear K.
  assert (W : forall s' r, with_scheme t s' r <-> exists sch, split_once ":" t = Some (sch, r) /\ scheme_ok sch = true /\ lowered sch = s') by (intros; apply with_scheme_iff).
  assert (Rel : (forall s' r, ~ with_scheme t s' r) -> relative domain ipv6 base t = Some u <->
    (absolute (u_scheme base) t /\ reads domain ipv6 s u \/ exists r, reference (u_scheme base) t r /\ means domain ipv6 base r u)).
  { intros Nw. rewrite (means_iff domain ipv6 base t u x Sp Hp). split.
    - intros Mn. right. exists t. split; [right; split; [exact Nw|reflexivity]|exact Mn].
    - intros [[(s' & r & X & _) _]|(r & [[X _]|[_ ->]] & Mn)]; [now elim (Nw s' r)|now elim (Nw (u_scheme base) r)|exact Mn]. }
  destruct (split_once ":" t) as [[sch r]|] eqn:E.
  - destruct (scheme_ok sch) eqn:O.
    + assert (W' : forall s' r', with_scheme t s' r' <-> s' = lowered sch /\ r' = r).
      { intros s' r'. rewrite W. split; [intros (sch' & X & _ & <-); injection X as <- <-; now split|]. intros [-> ->]. now exists sch. }
      destruct (String.eqb_spec (lowered sch) (u_scheme base)) as [L|L]; cbn [andb].
      * destruct (two_slashes r) eqn:T; cbn [negb].
        -- rewrite c112_reads_pf. split.
           ++ intros R. left. split; [|exact R]. exists (lowered sch), r. split; [now apply W'|]. intros _. now apply slashed_iff.
           ++ intros [[_ R]|(r' & [[X Y]|[X _]] & _)]; [exact R| |].
              ** apply W' in X as [_ ->]. elim Y. now apply slashed_iff.
              ** elim (X (lowered sch) r). now apply W'.
        -- rewrite (means_iff domain ipv6 base r u x Sp Hp). split.
           ++ intros Mn. right. exists r. split; [|exact Mn]. left. split; [apply W'; now split|now apply slashed_not].
           ++ intros [[(s' & r' & X & Y) _]|(r' & [[X Y]|[X _]] & Mn)].
              ** apply W' in X as [-> ->]. apply Y in L. apply slashed_iff in L. congruence.
              ** apply W' in X as [_ ->]. exact Mn.
              ** elim (X (lowered sch) r). now apply W'.
      * rewrite c112_reads_pf. split.
        -- intros R. left. split; [|exact R]. exists (lowered sch), r. split; [now apply W'|]. intros X. contradiction.
        -- intros [[_ R]|(r' & [[X Y]|[X _]] & _)]; [exact R| |].
           ++ apply W' in X as [X _]. now elim L.
           ++ elim (X (lowered sch) r). now apply W'.
    + apply Rel. intros s' r' X. apply W in X as (sch' & X & Y & _). injection X as <- <-. congruence.
  - apply Rel. intros s' r' X. apply W in X as (sch' & X & _). discriminate.
Qed.
Example c114_resolves_ex :
  exists base, web_parse toy_domain toy_ipv6 "https://me@v.example:8443/a/b?q#f" = Some base /\ special (u_scheme base) /\ u_path base = "/a/b"
    /\ map (fun s => option_map url_str (web_join toy_domain toy_ipv6 base s))
         ["/c"; "c/../d e"; "?x"; "#y"; ""; "//w.example"; "https:c"; "HTTP:\\w.example"; "\\\w.example"; "../../.."; "mailto:me"; "https:"]
       = [Some "https://me@v.example:8443/c"; Some "https://me@v.example:8443/a/d%20e"; Some "https://me@v.example:8443/a/b?x"; Some "https://me@v.example:8443/a/b?q#y";
          Some "https://me@v.example:8443/a/b?q"; Some "https://w.example/"; Some "https://me@v.example:8443/a/c"; Some "http://w.example/"; Some "https://w.example/";
          Some "https://me@v.example:8443/"; Some "mailto:me"; Some "https://me@v.example:8443/a/b?q"].
Proof.
  exists (mk_url "https" (Some "me@v.example:8443") "/a/b" false (Some "q") (Some "f")). split; [vm_compute; reflexivity|]. split; [right; now left|]. split; [reflexivity|]. vm_compute. reflexivity.
Qed.
