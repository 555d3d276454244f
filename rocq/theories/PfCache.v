(** Proofs about the certificate cache of the example verifier (C101). *)
From Coq Require Import Lia Arith.
From Verif Require Import Base BaseFacts Utf8 Utf8Facts Json JsonFacts JsonText JsonTextFacts JsonPretty SpecJsonText GrammarFacts PfGrammar PrettyFacts
  Base64 Base64Facts ExCache SpecCache CacheFacts.

Section Proofs.
  Context {Cert Key : Type}.
  Variable from_der : string -> option Cert.
  Variable to_der : Cert -> option string.
  Variable from_pkcs8 : string -> option Key.
  Hypothesis Re : reencodes from_der to_der.

  Notation load := (load from_der from_pkcs8).
  Notation start := (start from_der to_der from_pkcs8).
  Notation step := (step from_der to_der from_pkcs8).
  Notation history := (history from_der to_der from_pkcs8).
  Notation made := (of_one_generation from_der to_der from_pkcs8).
  Notation verifier := (@verifier Cert Key).
  Notation state := (@cache_state Cert Key).

  Lemma history_snoc es e : history (es ++ [e]) = step (history es) e.
  Proof. unfold ExCache.history. now rewrite fold_left_app. Qed.

  (* ---------------------------------------------------------- lists *)
  Lemma nth_set i (v : verifier) : forall l j, nth_error (set_nth i v l) j = if (j =? i)%nat then match nth_error l i with Some _ => Some v | None => None end else nth_error l j.
  Proof.
    induction i as [|i IH]; intros [|x l] [|j]; cbn; try reflexivity; [destruct (j =? i)%nat; reflexivity|apply IH].
  Qed.
  Lemma file_same n c fs : file_get n (file_set n c fs) = Some c.
  Proof. cbn. now rewrite String.eqb_refl. Qed.
  Lemma file_other n m c fs : n <> m -> file_get m (file_set n c fs) = file_get m fs.
  Proof. intros H. cbn. destruct (String.eqb_spec n m); [contradiction|reflexivity]. Qed.

  Definition same (v w : verifier) : Prop := v_domain v = v_domain w /\ v_generated v = v_generated w /\ v_outcome v = v_outcome w.
  Lemma same_todo v t : same v (with_todo v t).
  Proof. repeat split. Qed.

  (** What a step does to the verifiers. *)
  Lemma step_back s e i v : nth_error (cs_verifiers (step s e)) i = Some v ->
    (exists w, nth_error (cs_verifiers s) i = Some w /\ same w v) \/
    (exists d rd g, e = EStart d rd g /\ i = length (cs_verifiers s) /\ v = start (cs_files s) d rd g).
  Proof.
    destruct e as [d rd g|k|k n|k]; cbn [step ExCache.step].
    - cbn [cs_verifiers]. destruct (Nat.lt_ge_cases i (length (cs_verifiers s))) as [L|L].
      + rewrite nth_error_app1 by exact L. intros H. left. exists v. repeat split; exact H.
      + rewrite nth_error_app2 by exact L. destruct (i - length (cs_verifiers s)) as [|m] eqn:E; [|destruct m; discriminate].
        intros H. injection H as <-. right. exists d, rd, g. repeat split. lia.
    - destruct (nth_error (cs_verifiers s) k) as [u|] eqn:K; [|eauto using same_todo].
      2:{ intros H. left. exists v. repeat split; exact H. }
      destruct (v_todo u); try (intros H; left; exists v; repeat split; exact H). cbn [cs_verifiers]. rewrite nth_set, K.
      destruct (Nat.eqb_spec i k) as [->|]; intros H; left; [injection H as <-; exists u; split; [exact K|apply same_todo]|exists v; repeat split; exact H].
    - destruct (nth_error (cs_verifiers s) k) as [u|] eqn:K; [|intros H; left; exists v; repeat split; exact H].
      destruct (v_todo u); try (intros H; left; exists v; repeat split; exact H).
      destruct (file_get _ _); [|intros H; left; exists v; repeat split; exact H]. cbn [cs_verifiers]. rewrite nth_set, K.
      destruct (Nat.eqb_spec i k) as [->|]; intros H; left; [injection H as <-; exists u; split; [exact K|apply same_todo]|exists v; repeat split; exact H].
    - destruct (nth_error (cs_verifiers s) k) as [u|] eqn:K; [|intros H; left; exists v; repeat split; exact H].
      cbn [cs_verifiers]. rewrite nth_set, K.
      destruct (Nat.eqb_spec i k) as [->|]; intros H; left; [injection H as <-; exists u; split; [exact K|apply same_todo]|exists v; repeat split; exact H].
  Qed.
  Lemma step_forth s e i v : nth_error (cs_verifiers s) i = Some v -> exists w, nth_error (cs_verifiers (step s e)) i = Some w /\ same v w.
  Proof.
    intros H. destruct e as [d rd g|k|k n|k]; cbn [step ExCache.step].
    - exists v. split; [|repeat split]. cbn [cs_verifiers]. rewrite nth_error_app1; [exact H|]. apply nth_error_Some. congruence.
    - destruct (nth_error (cs_verifiers s) k) as [u|] eqn:K; [|exists v; repeat split; exact H].
      destruct (v_todo u); try (exists v; repeat split; exact H). cbn [cs_verifiers]. rewrite nth_set, K.
      destruct (Nat.eqb_spec i k) as [->|]; [|exists v; repeat split; exact H]. rewrite K in H. injection H as ->. eexists. split; [reflexivity|apply same_todo].
    - destruct (nth_error (cs_verifiers s) k) as [u|] eqn:K; [|exists v; repeat split; exact H].
      destruct (v_todo u); try (exists v; repeat split; exact H). destruct (file_get _ _); [|exists v; repeat split; exact H].
      cbn [cs_verifiers]. rewrite nth_set, K.
      destruct (Nat.eqb_spec i k) as [->|]; [|exists v; repeat split; exact H]. rewrite K in H. injection H as ->. eexists. split; [reflexivity|apply same_todo].
    - destruct (nth_error (cs_verifiers s) k) as [u|] eqn:K; [|exists v; repeat split; exact H]. cbn [cs_verifiers]. rewrite nth_set, K.
      destruct (Nat.eqb_spec i k) as [->|]; [|exists v; repeat split; exact H]. rewrite K in H. injection H as ->. eexists. split; [reflexivity|apply same_todo].
  Qed.

  (* ---------------------------------------------------------- the text a verifier writes *)
  Definition texts (w : verifier) (T : string) : Prop :=
    utf8_valid (v_domain w) = true /\
    exists der0 p x k der, v_generated w = Some (der0, p) /\ from_der der0 = Some x /\ from_pkcs8 p = Some k /\ to_der x = Some der /\ T = cache_text (v_domain w) der p.
  Lemma texts_same v w T : same v w -> texts v T -> texts w T.
  Proof. unfold texts. intros (-> & -> & _). auto. Qed.
  Lemma texts_load w T d o : texts w T -> load T d = Some o -> d = v_domain w /\ made (v_generated w) o.
  Proof.
    intros (U & der0 & p & x & k & der & G & D & P & E & ->) L. rewrite load_text in L by exact U.
    destruct (String.eqb_spec (v_domain w) d) as [<-|]; [|discriminate]. split; [reflexivity|].
    rewrite P, (Re der0 x der D E) in L. injection L as <-. exists der0, p. cbn. auto.
  Qed.
  Lemma texts_end w T : texts w T -> exists y, T = y +:+ "}".
  Proof.
    intros (_ & der0 & p & x & k & der & _ & _ & _ & _ & ->). unfold cache_text, cached_json. rewrite jpretty_obj, <- !sapp_assoc. eexists. reflexivity.
  Qed.
  Lemma texts_cut w T a b d o : texts w T -> T = a +:+ b -> load a d = Some o -> b = "".
  Proof.
    intros (U & der0 & p & x & k & der & _ & _ & _ & _ & ->) E L. destruct b as [|c b]; [reflexivity|]. rewrite load_raw in L; [discriminate|].
    eapply cut_raw; [exact U|exact E|discriminate].
  Qed.

  (** Where the outcome of a started verifier comes from. *)
  Lemma start_outcome fs d rd g o : v_outcome (start fs d rd g) = Some o ->
    made g o \/ exists c, file_get (cache_file d) fs = Some c /\ load c d = Some o.
  Proof.
    unfold ExCache.start. destruct (file_get (cache_file d) fs) as [c|] eqn:F.
    - destruct rd.
      + destruct (load c d) as [o'|] eqn:L; [intros H; injection H as <-; eauto|].
        intros H. left. revert H. unfold generate. destruct g as [[der p]|]; [|discriminate].
        destruct (from_der der) as [x|] eqn:D; [|discriminate]. destruct (from_pkcs8 p) as [k|] eqn:P; [|discriminate]. destruct (to_der x) as [der'|] eqn:E; [|discriminate].
        intros H. injection H as <-. exists der, p. cbn. auto.
      + intros H. left. revert H. unfold generate. destruct g as [[der p]|]; [|discriminate].
        destruct (from_der der) as [x|] eqn:D; [|discriminate]. destruct (from_pkcs8 p) as [k|] eqn:P; [|discriminate]. destruct (to_der x) as [der'|] eqn:E; [|discriminate].
        intros H. injection H as <-. exists der, p. cbn. auto.
    - intros H. left. revert H. unfold generate. destruct g as [[der p]|]; [|discriminate].
      destruct (from_der der) as [x|] eqn:D; [|discriminate]. destruct (from_pkcs8 p) as [k|] eqn:P; [|discriminate]. destruct (to_der x) as [der'|] eqn:E; [|discriminate].
      intros H. injection H as <-. exists der, p. cbn. auto.
  Qed.
  Lemma start_static fs d rd g : v_domain (start fs d rd g) = d /\ v_generated (start fs d rd g) = g.
  Proof.
    unfold ExCache.start. destruct (match file_get _ _ with Some _ => _ | None => _ end); [auto|]. destruct (generate _ _ g) as [[[k x] p]|]; [|auto]. destruct (to_der x); auto.
  Qed.
  (** It creates its file exactly when it could not load; then its text is that of its outcome. *)
  Lemma start_todo fs d rd g : utf8_valid d = true ->
    v_todo (start fs d rd g) = Nothing \/
    exists T o, v_todo (start fs d rd g) = Create T /\ texts (start fs d rd g) T /\ v_outcome (start fs d rd g) = Some o /\ load T d = Some o.
  Proof.
    intros U. unfold ExCache.start. destruct (match file_get _ _ with Some _ => _ | None => _ end); [auto|]. destruct g as [[der p]|]; [|auto]. cbn [generate].
    destruct (from_der der) as [x|] eqn:D; [|auto]. destruct (from_pkcs8 p) as [k|] eqn:P; [|auto]. destruct (to_der x) as [der'|] eqn:E; [|auto].
    right. exists (cache_text d der' p), (k, x, der'). cbn [v_todo v_outcome]. repeat split; auto.
    - exists der, p, x, k, der'. auto.
    - rewrite load_text by exact U. rewrite String.eqb_refl, P, (Re der x der' D E). reflexivity.
  Qed.

  (* ---------------------------------------------------------- what every history keeps, given what files hold *)
  (** Every outcome was made by one generation of a verifier for the same domain, started no later. *)
  Definition traced (s : state) : Prop := forall i v o, nth_error (cs_verifiers s) i = Some v -> v_outcome v = Some o ->
    exists j w, j <= i /\ nth_error (cs_verifiers s) j = Some w /\ v_domain w = v_domain v /\ made (v_generated w) o.
  Definition honest (s : state) : Prop := forall f c d o, file_get f (cs_files s) = Some c -> load c d = Some o ->
    exists j w, nth_error (cs_verifiers s) j = Some w /\ v_domain w = d /\ made (v_generated w) o.
  Lemma traced_step s e : honest s -> traced s -> traced (step s e).
  Proof.
    intros Ho Tr i v o Hv Hout. destruct (step_back s e i v Hv) as [(w & Hw & S1 & S2 & S3)|(d & rd & g & -> & Hi & Ev)].
    - rewrite <- S3 in Hout. destruct (Tr i w o Hw Hout) as (j & u & Lj & Hu & Du & Mu). destruct (step_forth s e j u Hu) as (u' & Hu' & T1 & T2 & T3).
      exists j, u'. rewrite <- T1, <- T2, <- S1. auto.
    - destruct (start_static (cs_files s) d rd g) as [Ed Eg]. rewrite <- Ev in Ed, Eg. rewrite Ev in Hout. apply start_outcome in Hout as [M|(c & F & L)].
      + exists i, v. rewrite Eg. auto.
      + destruct (Ho _ _ _ _ F L) as (j & u & Hu & Du & Mu). destruct (step_forth s (EStart d rd g) j u Hu) as (u' & Hu' & T1 & T2 & T3).
        exists j, u'. rewrite <- T1, <- T2, Ed. repeat split; auto.
        assert (j < length (cs_verifiers s)) by (apply nth_error_Some; congruence). lia.
  Qed.
  Definition texty (s : state) : Prop := forall i v, nth_error (cs_verifiers s) i = Some v -> utf8_valid (v_domain v) = true.
  Lemma texty_step s e : (forall d rd g, e = EStart d rd g -> utf8_valid d = true) -> texty s -> texty (step s e).
  Proof.
    intros U T i v Hv. destruct (step_back s e i v Hv) as [(w & Hw & S1 & _)|(d & rd & g & -> & _ & ->)]; [rewrite <- S1; eauto|].
    rewrite (proj1 (start_static _ _ _ _)). eauto.
  Qed.

  (** The new state of verifier [i] and of the others, step by step. *)
  Lemma create_cases s i j w : nth_error (cs_verifiers (step s (ECreate i))) j = Some w ->
    nth_error (cs_verifiers s) j = Some w /\ (forall v T, nth_error (cs_verifiers s) i = Some v -> v_todo v = Create T -> j <> i) \/
    exists v T, j = i /\ nth_error (cs_verifiers s) i = Some v /\ v_todo v = Create T /\ w = with_todo v (Rest 0 T).
  Proof.
    cbn [step ExCache.step]. destruct (nth_error (cs_verifiers s) i) as [v|] eqn:K; [|intros H; left; split; [exact H|congruence]].
    destruct (v_todo v) as [T| |] eqn:Td; try (intros H; left; split; [exact H|intros ? ? E E2; injection E as <-; congruence]).
    cbn [cs_verifiers]. rewrite nth_set, K. destruct (Nat.eqb_spec j i) as [->|N]; intros H; [right; exists v, T; injection H as <-; auto|left; auto].
  Qed.
  Lemma create_files s i : cs_files (step s (ECreate i)) = cs_files s \/
    exists v T, nth_error (cs_verifiers s) i = Some v /\ v_todo v = Create T /\ cs_files (step s (ECreate i)) = file_set (cache_file (v_domain v)) "" (cs_files s).
  Proof. cbn [step ExCache.step]. destruct (nth_error (cs_verifiers s) i) as [v|] eqn:K; [|auto]. destruct (v_todo v) as [T| |] eqn:Td; auto. right. exists v, T. auto. Qed.

  (* ---------------------------------------------------------- one at a time *)
  Record serial (s : state) : Prop := Serial {
    se_files : forall f c, file_get f (cs_files s) = Some c -> exists j w T b, nth_error (cs_verifiers s) j = Some w /\ cache_file (v_domain w) = f /\ texts w T /\ T = c +:+ b;
    se_rest : forall i v off r, nth_error (cs_verifiers s) i = Some v -> v_todo v = Rest off r ->
      exists T a, texts v T /\ T = a +:+ r /\ off = String.length a /\ file_get (cache_file (v_domain v)) (cs_files s) = Some a;
    se_create : forall i v T, nth_error (cs_verifiers s) i = Some v -> v_todo v = Create T -> texts v T;
    se_one : forall i j v w, nth_error (cs_verifiers s) i = Some v -> nth_error (cs_verifiers s) j = Some w -> busy v -> busy w ->
      cache_file (v_domain v) = cache_file (v_domain w) -> i = j }.
  Lemma serial_honest s : serial s -> honest s.
  Proof.
    intros S f c d o F L. destruct (se_files s S f c F) as (j & w & T & b & Hw & _ & Tx & E). pose proof (texts_cut w T c b d o Tx E L) as ->. rewrite sapp_nil_r in E. subst c.
    destruct (texts_load w T d o Tx L) as [-> M]. exists j, w. auto.
  Qed.

  Lemma in_one i (l : list verifier) v j w x : nth_error (set_nth i v l) j = Some w -> nth_error l i = Some x -> j = i /\ w = v \/ j <> i /\ nth_error l j = Some w.
  Proof. rewrite nth_set. intros H K. rewrite K in H. destruct (Nat.eqb_spec j i); [left; injection H as <-; auto|right; auto]. Qed.
  Lemma write_end a chunk : write_at (String.length a) chunk a = a +:+ chunk.
  Proof.
    unfold write_at. assert (H : forall a z, str_take (String.length a) (a +:+ z) = a) by (intros a0 z; induction a0 as [|c a0 IH]; [destruct z; reflexivity|cbn; now rewrite IH]).
    assert (D : forall a m, str_drop (String.length a + m) a = "") by (intros a0 m; induction a0 as [|c a0 IH]; [destruct m; reflexivity|cbn; exact IH]).
    now rewrite H, D, sapp_nil_r.
  Qed.
  Lemma todo_busy (v : verifier) t : v_todo v = t -> t <> Nothing -> busy v.
  Proof. unfold busy. intros -> N. exact N. Qed.
  Lemma with_busy (v : verifier) t : busy (with_todo v t) -> t <> Nothing.
  Proof. unfold busy. cbn. auto. Qed.

  (** Replacing what verifier [i] has to do, and its file. *)
  Lemma serial_update s i v t c : serial s -> nth_error (cs_verifiers s) i = Some v -> busy v ->
    (exists T b, texts v T /\ T = c +:+ b /\ (t = Nothing \/ t = Rest (String.length c) b)) ->
    serial (CState (file_set (cache_file (v_domain v)) c (cs_files s)) (set_nth i (with_todo v t) (cs_verifiers s))).
  Proof.
    intros S K B (T & b & Tx & E & Ht). constructor; cbn [cs_files cs_verifiers].
    - intros f c' F. destruct (String.eqb_spec (cache_file (v_domain v)) f) as [<-|N].
      + rewrite file_same in F. injection F as <-. exists i, (with_todo v t), T, b. rewrite nth_set, Nat.eqb_refl, K. auto.
      + rewrite file_other in F by exact N. destruct (se_files s S f c' F) as (j & w & T' & b' & Hw & Ef & Tx' & E'). exists j, w, T', b'.
        repeat split; auto; try apply Tx'. rewrite nth_set. destruct (Nat.eqb_spec j i) as [->|]; [|exact Hw]. congruence.
    - intros j w off r Hw Td. destruct (in_one _ _ _ _ _ _ Hw K) as [[-> ->]|[N Hw']].
      + cbn in Td. subst t. destruct Ht as [Ht|Ht]; [discriminate|]. injection Ht as -> ->. exists T, c. repeat split; auto; try apply Tx. apply file_same.
      + destruct (se_rest s S j w off r Hw' Td) as (T' & a & Tx' & E' & Eo & F). exists T', a. repeat split; auto; try apply Tx'.
        rewrite file_other; [exact F|]. intros Ef. apply N. apply (se_one s S j i w v); auto. eapply todo_busy; [exact Td|discriminate].
    - intros j w T' Hw Td. destruct (in_one _ _ _ _ _ _ Hw K) as [[-> ->]|[N Hw']]; [|eapply se_create; eauto]. cbn in Td. subst t. destruct Ht; discriminate.
    - intros j k w u Hw Hu Bw Bu Ef. destruct (in_one _ _ _ _ _ _ Hw K) as [[-> ->]|[N Hw']], (in_one _ _ _ _ _ _ Hu K) as [[-> ->]|[N' Hu']]; auto.
      + apply (se_one s S i k v u); auto.
      + apply (se_one s S j i w v); auto.
      + apply (se_one s S j k w u); auto.
  Qed.

  Lemma serial_step s e : (forall d rd g, e = EStart d rd g -> utf8_valid d = true /\ forall v, In v (cs_verifiers s) -> cache_file (v_domain v) = cache_file d -> ~ busy v) ->
    serial s -> serial (step s e).
  Proof.
    intros St S. destruct e as [d rd g|i|i n|i].
    - destruct (St d rd g eq_refl) as [U Nb]. cbn [step ExCache.step]. set (v0 := start (cs_files s) d rd g).
      pose proof (start_static (cs_files s) d rd g) as [Ed Eg]. fold v0 in Ed, Eg.
      assert (Bk : forall j w, nth_error (cs_verifiers s ++ [v0]) j = Some w -> nth_error (cs_verifiers s) j = Some w \/ j = length (cs_verifiers s) /\ w = v0).
      { intros j w H. destruct (Nat.lt_ge_cases j (length (cs_verifiers s))) as [L|L]; [rewrite nth_error_app1 in H by exact L; auto|].
        rewrite nth_error_app2 in H by exact L. destruct (j - length (cs_verifiers s)) as [|m] eqn:E; [|destruct m; discriminate]. injection H as <-. right. split; [lia|reflexivity]. }
      assert (Fw : forall j w, nth_error (cs_verifiers s) j = Some w -> nth_error (cs_verifiers s ++ [v0]) j = Some w).
      { intros j w H. rewrite nth_error_app1; [exact H|]. apply nth_error_Some. congruence. }
      constructor; cbn [cs_files cs_verifiers].
      + intros f c F. destruct (se_files s S f c F) as (j & w & T & b & Hw & R). exists j, w, T, b. auto.
      + intros i v off r Hv Td. apply Bk in Hv as [Hv|[-> ->]]; [eapply se_rest; eauto|]. destruct (start_todo (cs_files s) d rd g U) as [Ht|(T & o & Ht & _)]; fold v0 in Ht; congruence.
      + intros i v T Hv Td. apply Bk in Hv as [Hv|[-> ->]]; [eapply se_create; eauto|].
        destruct (start_todo (cs_files s) d rd g U) as [Ht|(T' & o & Ht & Tx & _)]; fold v0 in Ht; [congruence|]. fold v0 in Tx. assert (T' = T) as -> by congruence. exact Tx.
      + intros i j v w Hv Hw Bv Bw Ef. destruct (Bk _ _ Hv) as [Hv'|[-> ->]], (Bk _ _ Hw) as [Hw'|[-> ->]]; auto.
        * eapply se_one; eauto.
        * exfalso. apply (Nb v); [eapply nth_error_In; eauto|congruence|exact Bv].
        * exfalso. apply (Nb w); [eapply nth_error_In; eauto|congruence|exact Bw].
    - cbn [step ExCache.step]. destruct (nth_error (cs_verifiers s) i) as [v|] eqn:K; [|exact S]. destruct (v_todo v) as [T| |] eqn:Td; try exact S.
      apply serial_update; auto; [eapply todo_busy; [exact Td|discriminate]|]. exists T, T. repeat split; auto; apply (se_create s S i v T K Td).
    - cbn [step ExCache.step]. destruct (nth_error (cs_verifiers s) i) as [v|] eqn:K; [|exact S]. destruct (v_todo v) as [T|off r|] eqn:Td; try exact S.
      destruct (file_get (cache_file (v_domain v)) (cs_files s)) as [content|] eqn:F; [|exact S]. destruct (se_rest s S i v off r K Td) as (T & a & Tx & E & -> & F').
      assert (content = a) as -> by congruence. rewrite write_end. apply serial_update; auto; [eapply todo_busy; [exact Td|discriminate]|].
      exists T, (str_drop n r). repeat split; auto; try apply Tx.
      + rewrite sapp_assoc, take_drop. exact E.
      + destruct (str_drop n r); [auto|right]. rewrite slen_app. reflexivity.
    - cbn [step ExCache.step]. destruct (nth_error (cs_verifiers s) i) as [v|] eqn:K; [|exact S]. constructor; cbn [cs_files cs_verifiers].
      + intros f c F. destruct (se_files s S f c F) as (j & w & T & b & Hw & R & Tx & E). destruct (Nat.eq_dec j i) as [->|N].
        * exists i, (with_todo v Nothing), T, b. rewrite nth_set, Nat.eqb_refl, K. assert (w = v) as -> by congruence. auto.
        * exists j, w, T, b. rewrite nth_set. destruct (Nat.eqb_spec j i); [contradiction|auto].
      + intros j w off r Hw Td. destruct (in_one _ _ _ _ _ _ Hw K) as [[-> ->]|[N Hw']]; [discriminate|eapply se_rest; eauto].
      + intros j w T Hw Td. destruct (in_one _ _ _ _ _ _ Hw K) as [[-> ->]|[N Hw']]; [discriminate|eapply se_create; eauto].
      + intros j k w u Hw Hu Bw Bu Ef. destruct (in_one _ _ _ _ _ _ Hw K) as [[-> ->]|[N Hw']]; [now apply with_busy in Bw|].
        destruct (in_one _ _ _ _ _ _ Hu K) as [[-> ->]|[N' Hu']]; [now apply with_busy in Bu|]. eapply se_one; eauto.
  Qed.

  (* ---------------------------------------------------------- whole writes *)
  Definition ends (s : string) : Prop := s = "" \/ exists x, s = x +:+ "}".
  Lemma ends_drop n : forall s, ends s -> ends (str_drop n s).
  Proof.
    induction n as [|n IH]; intros [|c s] E; cbn; auto; try (now left). apply IH. destruct E as [E|(x & E)]; [discriminate|].
    destruct x as [|a x]; cbn in E; injection E as -> ->; [now left|right; eauto].
  Qed.
  Record whole (s : state) : Prop := Whole {
    wh_files : forall f c, file_get f (cs_files s) = Some c -> c = "" \/
      exists j w T t, nth_error (cs_verifiers s) j = Some w /\ texts w T /\ c = T +:+ t /\ ends t;
    wh_todo : forall i v, nth_error (cs_verifiers s) i = Some v -> v_todo v = Nothing \/ exists T, texts v T /\ (v_todo v = Create T \/ v_todo v = Rest 0 T) }.
  Lemma whole_honest s : whole s -> honest s.
  Proof.
    intros S f c d o F L. destruct (wh_files s S f c F) as [->|(j & w & T & t & Hw & Tx & -> & [->|(x & ->)])].
    - rewrite load_raw in L by reflexivity. discriminate.
    - rewrite sapp_nil_r in L. destruct (texts_load w T d o Tx L) as [-> M]. exists j, w. auto.
    - destruct Tx as (U & der0 & p & x' & k & der & _ & _ & _ & _ & ->). rewrite load_over in L by exact U. discriminate.
  Qed.
  Lemma whole_update s i v t c : whole s -> nth_error (cs_verifiers s) i = Some v ->
    (c = "" \/ exists T x, texts v T /\ c = T +:+ x /\ ends x) -> (t = Nothing \/ exists T, texts v T /\ (t = Create T \/ t = Rest 0 T)) ->
    whole (CState (file_set (cache_file (v_domain v)) c (cs_files s)) (set_nth i (with_todo v t) (cs_verifiers s))).
  Proof.
    intros S K Hc Ht. constructor; cbn [cs_files cs_verifiers].
    - intros f c' F. destruct (String.eqb_spec (cache_file (v_domain v)) f) as [<-|N].
      + rewrite file_same in F. injection F as <-. destruct Hc as [Hc|(T & x & Tx & E & X)]; [auto|right]. exists i, (with_todo v t), T, x. rewrite nth_set, Nat.eqb_refl, K. auto.
      + rewrite file_other in F by exact N. destruct (wh_files s S f c' F) as [E|(j & w & T' & x & Hw & Tx' & E)]; [auto|right]. destruct (Nat.eq_dec j i) as [->|Nj].
        * exists i, (with_todo v t), T', x. rewrite nth_set, Nat.eqb_refl, K. assert (w = v) as -> by congruence. auto.
        * exists j, w, T', x. rewrite nth_set. destruct (Nat.eqb_spec j i); [contradiction|auto].
    - intros j w Hw. destruct (in_one _ _ _ _ _ _ Hw K) as [[-> ->]|[N Hw']]; [exact Ht|eapply wh_todo; eauto].
  Qed.
  Lemma whole_step s e : (forall d rd g, e = EStart d rd g -> utf8_valid d = true) ->
    (forall i n v off text, e = EWrite i n -> nth_error (cs_verifiers s) i = Some v -> v_todo v = Rest off text -> String.length text <= n) -> whole s -> whole (step s e).
  Proof.
    intros St Wr S. destruct e as [d rd g|i|i n|i].
    - specialize (St d rd g eq_refl). cbn [step ExCache.step]. constructor; cbn [cs_files cs_verifiers].
      + intros f c F. destruct (wh_files s S f c F) as [E|(j & w & T & x & Hw & R)]; [auto|right]. exists j, w, T, x. rewrite nth_error_app1; [auto|]. apply nth_error_Some. congruence.
      + intros j w H. destruct (Nat.lt_ge_cases j (length (cs_verifiers s))) as [L|L]; [rewrite nth_error_app1 in H by exact L; eapply wh_todo; eauto|].
        rewrite nth_error_app2 in H by exact L. destruct (j - length (cs_verifiers s)) as [|m]; [|destruct m; discriminate]. injection H as <-.
        destruct (start_todo (cs_files s) d rd g St) as [Ht|(T & o & Ht & Tx & _)]; [auto|right; eauto].
    - cbn [step ExCache.step]. destruct (nth_error (cs_verifiers s) i) as [v|] eqn:K; [|exact S]. destruct (v_todo v) as [T| |] eqn:Td; try exact S.
      destruct (wh_todo s S i v K) as [Ht|(T' & Tx & [Ht|Ht])]; try congruence. assert (T' = T) as -> by congruence. apply whole_update; eauto.
    - cbn [step ExCache.step]. destruct (nth_error (cs_verifiers s) i) as [v|] eqn:K; [|exact S]. destruct (v_todo v) as [T|off r|] eqn:Td; try exact S.
      destruct (file_get (cache_file (v_domain v)) (cs_files s)) as [content|] eqn:F; [|exact S].
      pose proof (Wr i n v off r eq_refl K Td) as L. destruct (take_all n r L) as [-> ->].
      destruct (wh_todo s S i v K) as [Ht|(T' & Tx & [Ht|Ht])]; try congruence. rewrite Td in Ht. injection Ht as -> <-.
      apply whole_update; auto. right. exists r, (str_drop (String.length r) content). split; [exact Tx|]. split; [reflexivity|]. apply ends_drop.
      destruct (wh_files s S _ _ F) as [E|(j & w & T & x & Hw & Tx' & E & X)]; [now left|]. right. destruct X as [->|(x' & ->)].
      + destruct (texts_end w T Tx') as (y & ->). exists y. now rewrite sapp_nil_r in E.
      + exists (T +:+ x'). now rewrite sapp_assoc.
    - cbn [step ExCache.step]. destruct (nth_error (cs_verifiers s) i) as [v|] eqn:K; [|exact S]. constructor; cbn [cs_files cs_verifiers].
      + intros f c F. destruct (wh_files s S f c F) as [E|(j & w & T & x & Hw & Tx & E & X)]; [auto|right]. destruct (Nat.eq_dec j i) as [->|N].
        * exists i, (with_todo v Nothing), T, x. rewrite nth_set, Nat.eqb_refl, K. assert (w = v) as -> by congruence. auto.
        * exists j, w, T, x. rewrite nth_set. destruct (Nat.eqb_spec j i); [contradiction|auto].
      + intros j w Hw. destruct (in_one _ _ _ _ _ _ Hw K) as [[-> ->]|[N Hw']]; [left; reflexivity|eapply wh_todo; eauto].
  Qed.

  (* ---------------------------------------------------------- histories *)
  Lemma before_start es d rd g x : one_at_a_time from_der to_der from_pkcs8 (es ++ x) -> forall r, x = EStart d rd g :: r ->
    forall v, In v (cs_verifiers (history es)) -> cache_file (v_domain v) = cache_file d -> ~ busy v.
  Proof. intros O r ->. exact (O es r d rd g eq_refl). Qed.
  Lemma one_prefix es x : one_at_a_time from_der to_der from_pkcs8 (es ++ x) -> one_at_a_time from_der to_der from_pkcs8 es.
  Proof. intros O b a d rd g ->. apply (O b (a ++ x) d rd g). now rewrite <- app_assoc. Qed.
  Lemma whole_prefix es x : whole_writes from_der to_der from_pkcs8 (es ++ x) -> whole_writes from_der to_der from_pkcs8 es.
  Proof. intros O b a i n ->. apply (O b (a ++ x) i n). now rewrite <- app_assoc. Qed.
  Lemma domains_prefix es x : domains_ok (es ++ x) -> domains_ok es.
  Proof. intros D d rd g H. eapply D, in_or_app. eauto. Qed.

  Lemma serial_history es : domains_ok es -> one_at_a_time from_der to_der from_pkcs8 es -> serial (history es) /\ traced (history es).
  Proof.
    induction es as [|e es IH] using rev_ind; intros D O.
    - split; [|intros [|?]; discriminate]. constructor; try (intros [|?]; discriminate).
    - destruct (IH (domains_prefix _ _ D) (one_prefix _ _ O)) as [S T]. rewrite history_snoc. split; [|apply traced_step; [now apply serial_honest|exact T]].
      apply serial_step; [|exact S]. intros d rd g ->. split; [eapply D, in_or_app; right; now left|]. exact (O es [] d rd g eq_refl).
  Qed.
  Lemma whole_history es : domains_ok es -> whole_writes from_der to_der from_pkcs8 es -> whole (history es) /\ traced (history es).
  Proof.
    induction es as [|e es IH] using rev_ind; intros D O.
    - split; [|intros [|?]; discriminate]. constructor; try (intros [|?]; discriminate).
    - destruct (IH (domains_prefix _ _ D) (whole_prefix _ _ O)) as [S T]. rewrite history_snoc. split; [|apply traced_step; [now apply whole_honest|exact T]].
      apply whole_step; [| |exact S]. { intros d rd g ->. eapply D, in_or_app. right. now left. }
      intros i n v off text ->. exact (O es [] i n eq_refl v off text).
  Qed.

  (* ---------------------------------------------------------- stability *)
  (** Verifier [i] for [d] got [o]; nobody else uses the file; those that came later got [o] too. *)
  Record settled (i : nat) (d : string) (o : @outcome Cert Key) (s : state) : Prop := Settled {
    st_self : exists v, nth_error (cs_verifiers s) i = Some v /\ v_domain v = d /\ v_outcome v = Some o /\
      ((exists T, v_todo v = Create T /\ load T d = Some o) \/
       (exists a r, v_todo v = Rest (String.length a) r /\ file_get (cache_file d) (cs_files s) = Some a /\ load (a +:+ r) d = Some o) \/
       (v_todo v = Nothing /\ exists c, file_get (cache_file d) (cs_files s) = Some c /\ load c d = Some o));
    st_others : forall j w, j <> i -> nth_error (cs_verifiers s) j = Some w -> cache_file (v_domain w) = cache_file d -> v_todo w = Nothing;
    st_later : forall j w, i < j -> nth_error (cs_verifiers s) j = Some w -> v_domain w = d -> v_outcome w = Some o }.

  Lemma start_loads fs d g c o : file_get (cache_file d) fs = Some c -> load c d = Some o -> start fs d true g = Started d g (Some o) Nothing.
  Proof. intros F L. unfold ExCache.start. now rewrite F, L. Qed.

  Lemma settled_step i d o s e : settled i d o s -> e <> EStop i ->
    (forall d' rd g, e = EStart d' rd g -> cache_file d' = cache_file d -> d' = d /\ rd = true /\ forall v, In v (cs_verifiers s) -> cache_file (v_domain v) = cache_file d -> ~ busy v) ->
    settled i d o (step s e).
  Proof.
    intros S Ne St. destruct (st_self _ _ _ _ S) as (v & Hv & Dv & Ov & Cv). destruct e as [d' rd g|k|k n|k].
    - cbn [step ExCache.step]. assert (Li : i < length (cs_verifiers s)) by (apply nth_error_Some; congruence).
      assert (New : cache_file d' = cache_file d -> start (cs_files s) d' rd g = Started d g (Some o) Nothing).
      { intros Ef. destruct (St d' rd g eq_refl Ef) as (-> & -> & Nb).
        assert (Nv : ~ busy v) by (apply Nb; [eapply nth_error_In; eauto|congruence]). unfold busy in Nv.
        destruct Cv as [(T & E & _)|[(a & r & E & _)|(_ & c & F & L)]]; [exfalso; apply Nv; congruence|exfalso; apply Nv; congruence|]. exact (start_loads _ _ _ _ _ F L). }
      constructor; cbn [cs_files cs_verifiers].
      + exists v. rewrite nth_error_app1 by exact Li. auto.
      + intros j w Nj Hw Ef. destruct (Nat.lt_ge_cases j (length (cs_verifiers s))) as [L|L]; [rewrite nth_error_app1 in Hw by exact L; eapply st_others; eauto|].
        rewrite nth_error_app2 in Hw by exact L. destruct (j - length (cs_verifiers s)) as [|m]; [|destruct m; discriminate]. injection Hw as <-.
        rewrite (proj1 (start_static _ _ _ _)) in Ef. now rewrite (New Ef).
      + intros j w Nj Hw Ed. destruct (Nat.lt_ge_cases j (length (cs_verifiers s))) as [L|L]; [rewrite nth_error_app1 in Hw by exact L; eapply st_later; eauto|].
        rewrite nth_error_app2 in Hw by exact L. destruct (j - length (cs_verifiers s)) as [|m]; [|destruct m; discriminate]. injection Hw as <-.
        rewrite (proj1 (start_static _ _ _ _)) in Ed. subst d'. now rewrite (New eq_refl).
    - cbn [step ExCache.step]. destruct (nth_error (cs_verifiers s) k) as [u|] eqn:K; [|exact S]. destruct (v_todo u) as [T| |] eqn:Td; try exact S.
      destruct (Nat.eq_dec k i) as [->|Nk].
      + assert (u = v) as -> by congruence. constructor; cbn [cs_files cs_verifiers].
        * exists (with_todo v (Rest 0 T)). rewrite nth_set, Nat.eqb_refl, K. repeat split; auto. right; left. exists "", T. split; [reflexivity|].
          subst d. split; [apply file_same|]. change ("" +:+ T) with T. destruct Cv as [(T' & E & L)|[(a & r & E & _)|(E & _)]]; congruence.
        * intros j w Nj Hw Ef. destruct (in_one _ _ _ _ _ _ Hw K) as [[-> ->]|[N Hw']]; [contradiction|eapply st_others; eauto].
        * intros j w Nj Hw Ed. destruct (in_one _ _ _ _ _ _ Hw K) as [[-> ->]|[N Hw']]; [lia|eapply st_later; eauto].
      + assert (Nf : cache_file (v_domain u) <> cache_file d) by (intros Ef; pose proof (st_others _ _ _ _ S k u Nk K Ef); congruence).
        constructor; cbn [cs_files cs_verifiers].
        * exists v. rewrite nth_set. destruct (Nat.eqb_spec i k); [congruence|]. repeat split; auto. rewrite file_other by exact Nf. exact Cv.
        * intros j w Nj Hw Ef. destruct (in_one _ _ _ _ _ _ Hw K) as [[-> ->]|[N Hw']]; [contradiction|eapply st_others; eauto].
        * intros j w Nj Hw Ed. destruct (in_one _ _ _ _ _ _ Hw K) as [[-> ->]|[N Hw']]; [cbn in Ed; congruence|eapply st_later; eauto].
    - cbn [step ExCache.step]. destruct (nth_error (cs_verifiers s) k) as [u|] eqn:K; [|exact S]. destruct (v_todo u) as [T|off r|] eqn:Td; try exact S.
      destruct (file_get (cache_file (v_domain u)) (cs_files s)) as [content|] eqn:F; [|exact S].
      destruct (Nat.eq_dec k i) as [->|Nk].
      + assert (u = v) as -> by congruence. destruct Cv as [(T' & E & L)|[(a & r' & E & Fa & L)|(E & _)]]; try congruence.
        rewrite Td in E. injection E as -> ->. rewrite Dv in F. assert (content = a) as -> by congruence. rewrite write_end.
        constructor; cbn [cs_files cs_verifiers].
        * eexists. rewrite nth_set, Nat.eqb_refl, K. split; [reflexivity|]. repeat split; auto. right. rewrite Dv. destruct (str_drop n r') as [|c q] eqn:Er.
          -- right. split; [reflexivity|]. exists (a +:+ str_take n r'). split; [apply file_same|]. rewrite <- (take_drop n r'), Er, sapp_nil_r in L. exact L.
          -- left. exists (a +:+ str_take n r'), (String c q). cbn [with_todo v_todo]. rewrite slen_app. split; [reflexivity|]. split; [apply file_same|].
             rewrite sapp_assoc, <- Er, take_drop. exact L.
        * intros j w Nj Hw Ef. destruct (in_one _ _ _ _ _ _ Hw K) as [[-> ->]|[N Hw']]; [contradiction|eapply st_others; eauto].
        * intros j w Nj Hw Ed. destruct (in_one _ _ _ _ _ _ Hw K) as [[-> ->]|[N Hw']]; [lia|eapply st_later; eauto].
      + assert (Nf : cache_file (v_domain u) <> cache_file d) by (intros Ef; pose proof (st_others _ _ _ _ S k u Nk K Ef); congruence).
        constructor; cbn [cs_files cs_verifiers].
        * exists v. rewrite nth_set. destruct (Nat.eqb_spec i k); [congruence|]. repeat split; auto. rewrite file_other by exact Nf. exact Cv.
        * intros j w Nj Hw Ef. destruct (in_one _ _ _ _ _ _ Hw K) as [[-> ->]|[N Hw']]; [contradiction|eapply st_others; eauto].
        * intros j w Nj Hw Ed. destruct (in_one _ _ _ _ _ _ Hw K) as [[-> ->]|[N Hw']]; [cbn in Ed; congruence|eapply st_later; eauto].
    - cbn [step ExCache.step]. destruct (nth_error (cs_verifiers s) k) as [u|] eqn:K; [|exact S]. assert (Nk : k <> i) by congruence.
      constructor; cbn [cs_files cs_verifiers].
      + exists v. rewrite nth_set. destruct (Nat.eqb_spec i k); [congruence|]. auto.
      + intros j w Nj Hw Ef. destruct (in_one _ _ _ _ _ _ Hw K) as [[-> ->]|[N Hw']]; [reflexivity|eapply st_others; eauto].
      + intros j w Nj Hw Ed. destruct (in_one _ _ _ _ _ _ Hw K) as [[-> ->]|[N Hw']]; [cbn in Ed |- *; eapply st_later; eauto|eapply st_later; eauto].
  Qed.

  Lemma settled_start s d rd g o : utf8_valid d = true -> (forall v, In v (cs_verifiers s) -> cache_file (v_domain v) = cache_file d -> ~ busy v) ->
    v_outcome (start (cs_files s) d rd g) = Some o -> settled (length (cs_verifiers s)) d o (step s (EStart d rd g)).
  Proof.
    intros U Nb Ho. cbn [step ExCache.step]. set (v0 := start (cs_files s) d rd g) in *. pose proof (start_static (cs_files s) d rd g) as [Ed Eg]. fold v0 in Ed, Eg.
    constructor; cbn [cs_files cs_verifiers].
    - exists v0. rewrite nth_error_app2, Nat.sub_diag by lia. repeat split; auto.
      destruct (start_todo (cs_files s) d rd g U) as [Ht|(T & o' & Ht & Tx & Ho' & L)]; fold v0 in Ht.
      + right. right. split; [exact Ht|]. unfold v0, ExCache.start in Ho, Ht. destruct (file_get (cache_file d) (cs_files s)) as [c|]; [destruct rd|].
        * destruct (load c d) as [o'|] eqn:L; [injection Ho as <-; eauto|]. destruct (generate from_der from_pkcs8 g) as [[[k x] p]|]; [|discriminate]. destruct (to_der x); discriminate.
        * destruct (generate from_der from_pkcs8 g) as [[[k x] p]|]; [|discriminate]. destruct (to_der x); discriminate.
        * destruct (generate from_der from_pkcs8 g) as [[[k x] p]|]; [|discriminate]. destruct (to_der x); discriminate.
      + left. exists T. split; [exact Ht|]. fold v0 in Ho'. congruence.
    - intros j w Nj Hw Ef. destruct (Nat.lt_ge_cases j (length (cs_verifiers s))) as [L|L].
      + rewrite nth_error_app1 in Hw by exact L. assert (Nw : ~ busy w) by (apply Nb; [eapply nth_error_In; eauto|exact Ef]). unfold busy in Nw. destruct (v_todo w); [exfalso; apply Nw; discriminate..|reflexivity].
      + rewrite nth_error_app2 in Hw by exact L. destruct (j - length (cs_verifiers s)) as [|m] eqn:E; [lia|destruct m; discriminate].
    - intros j w Lj Hw _. assert (H : nth_error (cs_verifiers s ++ [v0]) j = None) by (apply nth_error_None; rewrite app_length; cbn; lia). congruence.
  Qed.

  Lemma stable_history es d : domains_ok es -> one_at_a_time from_der to_der from_pkcs8 es -> no_clash d es -> readable_for d es ->
    forall i v o, ~ In (EStop i) es -> nth_error (cs_verifiers (history es)) i = Some v -> v_domain v = d -> v_outcome v = Some o -> settled i d o (history es).
  Proof.
    induction es as [|e es IH] using rev_ind; intros D O Nc Rd i v o Ns Hv Dv Ov; [destruct i; discriminate|].
    rewrite history_snoc in *. destruct (step_back _ _ _ _ Hv) as [(w & Hw & S1 & _ & S3)|(d' & rd & g & -> & -> & Ev)].
    - apply settled_step; [eapply IH; eauto| |].
      + eapply domains_prefix; eauto.
      + eapply one_prefix; eauto.
      + intros d' rd g H. apply (Nc d' rd g), in_or_app. auto.
      + intros rd g H. apply (Rd rd g), in_or_app. auto.
      + intros H. apply Ns, in_or_app. auto.
      + congruence.
      + congruence.
      + intros ->. apply Ns, in_or_app. right. now left.
      + intros d' rd g -> Ef. assert (d' = d) as -> by (apply (Nc d' rd g); [apply in_or_app; right; now left|exact Ef]).
        split; [reflexivity|]. split; [apply (Rd rd g), in_or_app; right; now left|]. exact (O es [] d rd g eq_refl).
    - rewrite Ev in Ov, Dv. rewrite (proj1 (start_static _ _ _ _)) in Dv. subst d'.
      apply settled_start; [eapply D, in_or_app; right; now left|exact (O es [] d rd g eq_refl)|exact Ov].
  Qed.
End Proofs.

(* ------------------------------------------------------------ the theorems *)
(** C101: Whatever verifiers are started and wherever they stop, each one's key, certificate and encoded certificate come from one and the same
    generation, made for its own domain by it or an earlier verifier, as long as verifiers sharing a file run one at a time, or each write is done at once. *)
Lemma c101_pair_pf : forall (Cert Key : Type) from_der to_der from_pkcs8 es i (v : @verifier Cert Key) o,
  reencodes from_der to_der -> domains_ok es ->
  one_at_a_time from_der to_der from_pkcs8 es \/ whole_writes from_der to_der from_pkcs8 es ->
  nth_error (cs_verifiers (history from_der to_der from_pkcs8 es)) i = Some v -> v_outcome v = Some o ->
  exists j w, j <= i /\ nth_error (cs_verifiers (history from_der to_der from_pkcs8 es)) j = Some w /\ v_domain w = v_domain v
    /\ of_one_generation from_der to_der from_pkcs8 (v_generated w) o.
Proof.
  intros Cert Key fd td fp es i v o Re D [O|W] Hv Ho.
  - exact (proj2 (serial_history fd td fp Re es D O) i v o Hv Ho).
  - exact (proj2 (whole_history fd td fp Re es D W) i v o Hv Ho).
Qed.

(** C101: Once a verifier has its certificate and was not stopped before its file was written, every later verifier for that domain gets the same,
    when they run one at a time, can read the file, and no other domain uses the same file name. *)
Lemma c101_stable_pf : forall (Cert Key : Type) from_der to_der from_pkcs8 es i j (v w : @verifier Cert Key) o,
  reencodes from_der to_der -> domains_ok es -> one_at_a_time from_der to_der from_pkcs8 es ->
  no_clash (v_domain v) es -> readable_for (v_domain v) es -> ~ In (EStop i) es -> i < j ->
  nth_error (cs_verifiers (history from_der to_der from_pkcs8 es)) i = Some v ->
  nth_error (cs_verifiers (history from_der to_der from_pkcs8 es)) j = Some w ->
  v_domain w = v_domain v -> v_outcome v = Some o -> v_outcome w = Some o.
Proof.
  intros Cert Key fd td fp es i j v w o Re D O Nc Rd Ns L Hv Hw Ed Ho.
  exact (st_later _ _ _ _ _ _ (stable_history fd td fp Re es (v_domain v) D O Nc Rd i v o Ns Hv eq_refl Ho) j w L Hw Ed).
Qed.

(** C101: A verifier that can generate a certificate always gets one, whatever the file holds and whatever happened before. *)
Lemma c101_recovers_pf : forall (Cert Key : Type) (from_der : string -> option Cert) to_der (from_pkcs8 : string -> option Key) es d rd g,
  can_generate from_der to_der from_pkcs8 g ->
  exists v o, nth_error (cs_verifiers (history from_der to_der from_pkcs8 (es ++ [EStart d rd g]))) (length (cs_verifiers (history from_der to_der from_pkcs8 es))) = Some v
    /\ v_domain v = d /\ v_outcome v = Some o.
Proof.
  intros Cert Key fd td fp es d rd g ([[k x] der'] & der & p & -> & P & D & E). cbn [fst snd] in *. rewrite history_snoc. cbn [step cs_verifiers].
  rewrite nth_error_app2, Nat.sub_diag by lia. cbn [nth_error]. eexists. 
  assert (exists o, v_outcome (start fd td fp (cs_files (history fd td fp es)) d rd (Some (der, p))) = Some o) as [o Ho].
  { unfold start. destruct (match file_get _ _ with Some _ => _ | None => _ end); [eexists; reflexivity|]. cbn [generate]. rewrite D, P, E. eexists. reflexivity. }
  exists o. split; [reflexivity|]. split; [apply start_static|exact Ho].
Qed.

Lemma trim_split c s : exists p, s = trim_end c s +:+ p /\ str_all (Ascii.eqb c) p = true.
Proof.
  induction s as [|a s IH]; cbn [trim_end]; [exists ""; auto|]. destruct IH as (p & E & A).
  destruct (trim_end c s) as [|b r] eqn:T.
  - destruct (Ascii.eqb_spec a c) as [->|N].
    + exists (String c s). rewrite Ascii.eqb_refl. split; [reflexivity|]. cbn [str_all]. rewrite Ascii.eqb_refl. cbn [String.append] in E. now rewrite E.
    + rewrite (proj2 (Ascii.eqb_neq c a)) by congruence. exists p. cbn [String.append s1] in *. split; [now f_equal|exact A].
  - exists p. split; [cbn [String.append]; f_equal; exact E|exact A].
Qed.
Lemma pads_eq c p : forall q, str_all (Ascii.eqb c) p = true -> str_all (Ascii.eqb c) q = true -> String.length p = String.length q -> p = q.
Proof.
  induction p as [|a p IH]; intros [|b q] P Q L; cbn in *; try discriminate; [reflexivity|].
  apply andb_true_iff in P as [P1 P2]. apply andb_true_iff in Q as [Q1 Q2]. apply Ascii.eqb_eq in P1, Q1. subst. f_equal. auto.
Qed.
Lemma std_iff t s : b64std_decode t = Some s <-> t = b64std_encode s.
Proof.
  split; [|intros ->; apply std_rt]. unfold b64std_decode. intros H.
  destruct (_ && _)%bool eqn:B; [|discriminate]. apply andb_true_iff in B as [B1 B2]. apply b64_canonical in H.
  pose proof (std_rt s) as R. unfold b64std_decode in R. destruct (_ && _)%bool eqn:B' in R; [|discriminate]. apply andb_true_iff in B' as [B3 B4].
  rewrite trim_padded in B4. destruct (trim_split "=" t) as (p & E & A). destruct (b64_pad_suffix Std s) as (p' & E' & A').
  fold (b64std_encode s) in E'. rewrite H in *.
  assert (L : String.length t = String.length (b64_encode Std false s) + String.length p) by (rewrite E; apply slen_app).
  assert (L' : String.length (b64std_encode s) = String.length (b64_encode Std false s) + String.length p') by (rewrite E'; apply slen_app).
  apply Nat.eqb_eq in B1, B3. apply Nat.leb_le in B2, B4.
  rewrite E, E'. f_equal. apply (pads_eq "="); [exact A|exact A'|].
  rewrite L in B1. rewrite L' in B3. pose proof (Nat.div_mod_eq (String.length (b64_encode Std false s) + String.length p) 4).
  pose proof (Nat.div_mod_eq (String.length (b64_encode Std false s) + String.length p') 4). lia.
Qed.
Lemma once_iff k m v : once k m = Some v <-> sole k m v.
Proof.
  unfold once, sole. destruct (filter _ m) as [|[k' j] [|]]; [| |]; cbn [map snd].
  - split; discriminate.
  - destruct j; split; congruence.
  - destruct j; split; discriminate.
Qed.
Lemma cached_iff content d c k : utf8_valid content = true -> cached_of_text content = Some (Cached d c k) <-> file_says content d c k.
Proof.
  intros U. unfold cached_of_text, file_says. split.
  - intros H. split; [exact U|]. destruct (parse_raw content) as [[| | | | |l|m]|]; try discriminate.
    + right. destruct l as [|[] [|[] [|[] []]]]; try discriminate. now injection H as -> -> ->.
    + left. exists m. split; [reflexivity|]. destruct (once "domain" m) eqn:D; [|discriminate]. destruct (once "cert_der_b64" m) eqn:C; [|discriminate].
      destruct (once "key_pkcs8_b64" m) eqn:K; [|discriminate]. injection H as -> -> ->. rewrite <- !once_iff. auto.
  - intros (_ & [(m & -> & D & C & K)| ->]); [|reflexivity]. apply once_iff in D, C, K. now rewrite D, C, K.
Qed.
Lemma load_iff {Cert Key} (fd : string -> option Cert) (fp : string -> option Key) content d o : load fd fp content d = Some o <-> SpecCache.gives fd fp content d o.
Proof.
  unfold load, SpecCache.gives. split.
  - destruct (utf8_valid content) eqn:U; [|discriminate]. destruct (cached_of_text content) as [[d' c k]|] eqn:E; [|discriminate].
    cbn [ca_domain ca_key ca_cert]. destruct (String.eqb_spec d' d) as [->|]; [|discriminate].
    destruct (b64std_decode k) as [p|] eqn:K; [|discriminate]. destruct (fp p) as [kk|] eqn:P; [|discriminate].
    destruct (b64std_decode c) as [der|] eqn:C; [|discriminate]. destruct (fd der) as [x|] eqn:D; [|discriminate]. intros [= <-].
    exists p. cbn [fst snd]. apply std_iff in K, C. subst. apply (cached_iff _ _ _ _ U) in E. auto.
  - intros (p & S & P & D). pose proof S as [U _]. rewrite U. apply (cached_iff _ _ _ _ U) in S. rewrite S. cbn [ca_domain ca_key ca_cert].
    rewrite String.eqb_refl, !std_rt, P, D. now destruct o as [[? ?] ?].
Qed.

(** C101: Whatever is in the cache directory, a verifier takes what the file of its domain gives, if that is a readable text with domain, certificate and
    key each given once, for this very domain; in every other case it uses what it generates. *)
Lemma c101_reads_pf : forall (Cert Key : Type) (from_der : string -> option Cert) to_der (from_pkcs8 : string -> option Key) (fs : files) d rd g o,
  let usable o' := rd = true /\ exists content, file_get (cache_file d) fs = Some content /\ gives from_der from_pkcs8 content d o' in
  v_outcome (start from_der to_der from_pkcs8 fs d rd g) = Some o <->
  usable o \/ (forall o', ~ usable o') /\ of_one_generation from_der to_der from_pkcs8 g o.
Proof.
  intros Cert Key fd td fp fs d rd g o usable.
  assert (L : forall o', (match file_get (cache_file d) fs with Some c => if rd then load fd fp c d else None | None => None end) = Some o' <-> usable o').
  { intros o'. unfold usable. destruct (file_get (cache_file d) fs) as [c|]; [|split; [discriminate|intros (_ & ? & E & _); discriminate]].
    destruct rd; [|split; [discriminate|intros (E & _); discriminate]]. rewrite load_iff. split; [eauto|]. intros (_ & c' & [= <-] & G). exact G. }
  unfold start. destruct (match file_get (cache_file d) fs with Some c => if rd then load fd fp c d else None | None => None end) as [o1|] eqn:E.
  - cbn [v_outcome]. assert (U : usable o1) by (apply L; reflexivity). split.
    + intros [= <-]. auto.
    + intros [U'|[N _]]; [|now destruct (N o1)]. apply L in U'. congruence.
  - assert (N : forall o', ~ usable o') by (intros o' U; apply L in U; discriminate). split.
    + intros H. right. split; [exact N|]. unfold generate in H. destruct g as [[der p]|]; [|discriminate].
      destruct (fd der) as [x|] eqn:D; [|discriminate]. destruct (fp p) as [k|] eqn:P; [|discriminate].
      destruct (td x) as [der'|] eqn:T; [|discriminate]. injection H as <-. exists der, p. cbn [fst snd]. auto.
    + intros [U|[_ (der & p & -> & P & D & T)]]; [now apply N in U|]. destruct o as [[k x] der']. cbn [fst snd] in *. unfold generate. now rewrite D, P, T.
Qed.
Example c101_reads_ex :
  let f content := v_outcome (@start string string Some Some Some [("v_example.json", content)] "v.example" true (Some ("new", "own"))) in
  f "{""cert_der_b64"":""Y2VydA=="",""key_pkcs8_b64"":""a2V5"",""domain"":""v.example"",""x"":0}" = Some ("key", "cert", "cert")
  /\ f "[""v.example"", ""Y2VydA=="", ""a2V5""]" = Some ("key", "cert", "cert")
  /\ f "{""cert_der_b64"":""Y2VydA=="",""key_pkcs8_b64"":""a2V5"",""domain"":""v.example"",""domain"":""v.example""}" = Some ("own", "new", "new")
  /\ f "{""cert_der_b64"":""Y2VydA"",""key_pkcs8_b64"":""a2V5"",""domain"":""v.example""}" = Some ("own", "new", "new")
  /\ f "{""cert_der_b64"":""Y2VydA=="",""key_pkcs8_b64"":""a2V5"",""domain"":""w.example""}" = Some ("own", "new", "new").
Proof. vm_compute. auto. Qed.

Lemma underscored_join labels : (forall l, In l labels -> has_char "." l = false) -> underscored (join "." labels) = join "_" labels.
Proof.
  assert (A : forall a b, underscored (a +:+ b) = underscored a +:+ underscored b) by (induction a as [|c a IH]; intros b; cbn; [reflexivity|now rewrite IH]).
  assert (P : forall a, has_char "." a = false -> underscored a = a).
  { induction a as [|c a IH]; intros H; [reflexivity|]. cbn [has_char underscored] in *. apply orb_false_iff in H as [H1 H2].
    destruct (Ascii.eqb_spec c ".") as [->|_]; [discriminate|]. now rewrite IH by exact H2. }
  induction labels as [|l [|l' ls] IH]; intros H; [reflexivity|apply P, H; now left|].
  change (underscored (l +:+ "." +:+ join "." (l' :: ls)) = l +:+ "_" +:+ join "_" (l' :: ls)).
  rewrite !A, (P l) by (apply H; now left). rewrite IH by (intros x X; apply H; now right). reflexivity.
Qed.
Lemma labels_of d : exists labels, labels <> [] /\ (forall l, In l labels -> has_char "." l = false) /\ d = join "." labels.
Proof.
  induction d as [|c d (ls & N & H & E)]; [exists [""]; split; [discriminate|split; [intros l [<-|[]]; reflexivity|reflexivity]]|].
  destruct ls as [|l ls]; [congruence|]. destruct (Ascii.eqb_spec "." c) as [<-|Nc].
  - exists ("" :: l :: ls). split; [discriminate|]. split; [intros x [<-|X]; [reflexivity|exact (H x X)]|].
    rewrite E. reflexivity.
  - exists (String c l :: ls). split; [discriminate|]. split.
    + intros x [<-|X]; [|apply H; now right]. cbn [has_char]. apply orb_false_iff. split; [|apply H; now left].
      destruct (Ascii.eqb_spec "." c); [congruence|]. reflexivity.
    + rewrite E. destruct ls; reflexivity.
Qed.

(** C101: The file of a domain has its labels, joined by underscores, as its name, and the ending ".json". *)
Lemma c101_name_pf : forall d f, cache_file d = f <-> named d f.
Proof.
  intros d f. unfold cache_file. split.
  - intros <-. destruct (labels_of d) as (ls & N & H & E). exists ls. split; [exact N|]. split; [exact H|]. split; [exact E|].
    rewrite E, underscored_join by exact H. reflexivity.
  - intros (ls & N & H & E & ->). now rewrite E, underscored_join by exact H.
Qed.
Example c101_name_ex : named "a.v_x.example" "a_v_x_example.json" /\ ~ named "v.example" "v.example.json".
Proof. split; [apply c101_name_pf; reflexivity|intros H; apply c101_name_pf in H; discriminate]. Qed.

(** C101: Domains without an underscore never share a file. *)
Lemma c101_separate_pf : forall d d', has_char "_" d = false -> has_char "_" d' = false -> cache_file d = cache_file d' -> d = d'.
Proof.
  intros d d' H H' E. unfold cache_file in E. apply sapp_inv_tail in E. revert d' H' E.
  induction d as [|c d IH]; intros [|c' d'] H' E; cbn in *; try discriminate; [reflexivity|].
  apply orb_false_iff in H as [H1 H2]. apply orb_false_iff in H' as [H1' H2']. injection E as Ec E. f_equal; [|auto].
  destruct (Ascii.eqb_spec c "."), (Ascii.eqb_spec c' "."); subst; auto; try discriminate.
Qed.

(** C101: What a verifier leaves in its file is JSON text that says the domain, the certificate and the key. *)
Lemma c101_file_pf : forall (Cert Key : Type) (from_der : string -> option Cert) to_der (from_pkcs8 : string -> option Key) d der0 p x k der,
  utf8_valid d = true -> from_der der0 = Some x -> from_pkcs8 p = Some k -> to_der x = Some der ->
  exists text, json_text 127 text (JObj [("cert_der_b64", JStr (b64std_encode der)); ("domain", JStr d); ("key_pkcs8_b64", JStr (b64std_encode p))]) /\
    forall n, String.length text <= n ->
    file_get (cache_file d) (cs_files (history from_der to_der from_pkcs8 [EStart d true (Some (der0, p)); ECreate 0; EWrite 0 n])) = Some text.
Proof.
  intros Cert Key fd td fp d der0 p x k der U D P E. exists (cache_text d der p). split.
  - apply c95_grammar_pf. unfold json_of_text. rewrite text_raw by exact U. reflexivity.
  - intros n L. unfold history. cbn [fold_left]. set (s1 := step fd td fp _ (EStart d true (Some (der0, p)))).
    assert (E1 : s1 = CState [] [Started d (Some (der0, p)) (Some (k, x, der)) (Create (cache_text d der p))]).
    { unfold s1. cbn [step cs_files cs_verifiers app]. unfold start. cbn [file_get generate]. now rewrite D, P, E. }
    rewrite E1. cbn [step cs_verifiers nth_error v_todo v_domain cs_files set_nth with_todo]. rewrite file_same. cbv zeta. cbn [cs_files]. destruct (take_all n _ L) as [-> _].
    rewrite file_same. f_equal. exact (write_end "" (cache_text d der p)).
Qed.

(** C101: Indented JSON text denotes the value it was written from. *)
Lemma c101_text_pf : forall j, jwf j = true -> jdepth j <= 127 -> json_text 127 (jpretty "" j) j.
Proof.
  intros j Hw Hd. apply c95_grammar_pf. unfold json_of_text. unfold jwf in Hw. apply andb_true_iff in Hw as [Ht Hs].
  rewrite parse_raw_pretty by assumption. cbn [option_map]. f_equal. now apply normalize_sorted.
Qed.

(* ------------------------------------------------------------ witnesses *)
Definition toy_start (d der p : string) : event := EStart d true (Some (der, p)).
Definition toy_history (es : list event) : @cache_state string string := history Some Some Some es.
Definition outcomes (es : list event) : list (option (string * string * string)) := map v_outcome (cs_verifiers (toy_history es)).
Lemma toy_reencodes : reencodes (Some (A:=string)) (Some (A:=string)).
Proof. intros der x d [= ->] [= ->]. reflexivity. Qed.

(** Three verifiers: the first is stopped in the middle of its write, the second writes, the third loads. *)
Definition toy_cut : list event :=
  [toy_start "v.example" "cert1" "key1"; ECreate 0; EWrite 0 40; EStop 0;
   toy_start "v.example" "cert2" "key2"; ECreate 1; EWrite 1 20; EWrite 1 1000;
   toy_start "v.example" "cert3" "key3"].
Example c101_pair_ex : one_at_a_time Some Some Some toy_cut /\ domains_ok toy_cut /\
  outcomes toy_cut = [Some ("key1", "cert1", "cert1"); Some ("key2", "cert2", "cert2"); Some ("key2", "cert2", "cert2")].
Proof.
  split; [|split; [|vm_compute; reflexivity]].
  - intros b a d rd g H v Hv Ef.
    assert (E : forallb (fun v => match v_todo v with Nothing => true | _ => false end) (cs_verifiers (toy_history b)) = true).
    { unfold toy_cut, toy_start in H.
      do 9 (destruct b as [|? b]; cbn [app] in H; [first [discriminate H|vm_compute; reflexivity]|injection H as <- H]). destruct b; discriminate H. }
    rewrite forallb_forall in E. specialize (E v Hv). unfold busy. destruct (v_todo v); try discriminate. auto.
  - intros d rd g H. cbn in H. repeat destruct H as [H|H]; try discriminate; try contradiction; injection H as <- _ _; reflexivity.
Qed.
(** Two verifiers for one domain at once, whole writes: the second's shorter text leaves the end of the first's behind, so the third generates anew. *)
Definition toy_race : list event :=
  [toy_start "v.example" "cert1" "a longer key"; toy_start "v.example" "cert2" "key2"; ECreate 0; ECreate 1; EWrite 0 1000; EWrite 1 1000;
   toy_start "v.example" "cert3" "key3"].
Example c101_pair_race_ex : whole_writes Some Some Some toy_race /\ domains_ok toy_race /\
  outcomes toy_race = [Some ("a longer key", "cert1", "cert1"); Some ("key2", "cert2", "cert2"); Some ("key3", "cert3", "cert3")].
Proof.
  split; [|split; [|vm_compute; reflexivity]].
  - intros b a i n H v off text Hv Td. unfold toy_race, toy_start in H.
    assert (E : forallb (fun v => match v_todo v with Rest _ t => (String.length t <=? 1000)%nat | _ => true end) (cs_verifiers (toy_history b)) = true /\ n = 1000).
    { do 7 (destruct b as [|? b]; cbn [app] in H; [first [discriminate H|injection H as _ <- _; split; [vm_compute; reflexivity|reflexivity]]|injection H as <- H]). destruct b; discriminate H. }
    destruct E as [E ->]. rewrite forallb_forall in E. apply nth_error_In in Hv. specialize (E v Hv). rewrite Td in E. now apply Nat.leb_le in E.
  - intros d rd g H. cbn in H. repeat destruct H as [H|H]; try discriminate; try contradiction; injection H as <- _ _; reflexivity.
Qed.

(** From the second verifier of [toy_cut] on, all agree. *)
Example c101_stable_ex : one_at_a_time Some Some Some toy_cut /\ no_clash "v.example" toy_cut /\ readable_for "v.example" toy_cut /\ ~ In (EStop 1) toy_cut
  /\ nth_error (outcomes toy_cut) 1 = nth_error (outcomes toy_cut) 2.
Proof.
  split; [exact (proj1 c101_pair_ex)|]. split; [|split; [|split]].
  - intros d rd g H _. cbn in H. repeat destruct H as [H|H]; try discriminate; try contradiction; now injection H as <- _ _.
  - intros rd g H. cbn in H. repeat destruct H as [H|H]; try discriminate; try contradiction; now injection H as <- _.
  - intros H. cbn in H. repeat destruct H as [H|H]; try discriminate; contradiction.
  - vm_compute. reflexivity.
Qed.
Example c101_recovers_ex : can_generate (Some (A:=string)) Some (Some (A:=string)) (Some ("cert", "key"))
  /\ outcomes ([toy_start "v.example" "cert1" "key1"; ECreate 0] ++ [EStart "v.example" true (Some ("cert", "key"))]) = [Some ("key1", "cert1", "cert1"); Some ("key", "cert", "cert")].
Proof. split; [|vm_compute; reflexivity]. exists ("key", "cert", "cert"), "cert", "key". auto. Qed.
Example c101_separate_ex : has_char "_" "v.example" = false /\ cache_file "v.example" = "v_example.json" /\ cache_file "v-example" <> cache_file "v.example".
Proof. repeat split; discriminate. Qed.
Example c101_file_ex : file_get "v_example.json" (cs_files (toy_history [toy_start "v.example" "cert" "key"; ECreate 0; EWrite 0 200])) =
  Some (join newline ["{"; "  ""domain"": ""v.example"","; "  ""cert_der_b64"": ""Y2VydA=="","; "  ""key_pkcs8_b64"": ""a2V5"""; "}"]).
Proof. vm_compute. reflexivity. Qed.
Example c101_text_ex : jwf (JObj [("a", JArr [JInt 1; JObj []]); ("b", JArr [])]) = true
  /\ jpretty "" (JObj [("a", JArr [JInt 1; JObj []]); ("b", JArr [])]) = join newline ["{"; "  ""a"": ["; "    1,"; "    {}"; "  ],"; "  ""b"": []"; "}"].
Proof. split; vm_compute; reflexivity. Qed.

(** C101: Two domains that differ in a dot and an underscore take each other's place: with one verifier at a time, none stopped and every file readable,
    the same domain gets two different certificates. *)
Lemma c101_evict_refuted_pf :
  exists es, one_at_a_time Some Some Some es /\ domains_ok es /\ (forall i, ~ In (EStop i) es) /\ (forall d, readable_for d es) /\
    map (@v_domain string string) (cs_verifiers (history Some Some Some es)) = ["a.b"; "a_b"; "a.b"] /\
    map v_outcome (cs_verifiers (history Some Some Some es)) = [Some ("key1", "cert1", "cert1"); Some ("key2", "cert2", "cert2"); Some ("key3", "cert3", "cert3")].
Proof.
  set (es := [toy_start "a.b" "cert1" "key1"; ECreate 0; EWrite 0 1000; toy_start "a_b" "cert2" "key2"; ECreate 1; EWrite 1 1000; toy_start "a.b" "cert3" "key3"]).
  exists es. split; [|split; [|split; [|split; [|split; vm_compute; reflexivity]]]].
  - intros b a d rd g H v Hv Ef.
    assert (E : forallb (fun v => match v_todo v with Nothing => true | _ => false end) (cs_verifiers (toy_history b)) = true).
    { unfold es, toy_start in H.
      do 7 (destruct b as [|? b]; cbn [app] in H; [first [discriminate H|vm_compute; reflexivity]|injection H as <- H]). destruct b; discriminate H. }
    rewrite forallb_forall in E. specialize (E v Hv). unfold busy. destruct (v_todo v); try discriminate. auto.
  - intros d rd g H. cbn in H. repeat destruct H as [H|H]; try discriminate; try contradiction; injection H as <- _ _; reflexivity.
  - intros i H. cbn in H. repeat destruct H as [H|H]; try discriminate; contradiction.
  - intros d rd g H. cbn in H. repeat destruct H as [H|H]; try discriminate; try contradiction; now injection H as _ <- _.
Qed.

(** C101: Two verifiers started together for one domain, one of them stopped in the middle of its write, can leave a file from which a third one takes the
    certificate of one and the key of the other. *)
Lemma c101_mixed_refuted_pf :
  exists es, domains_ok es /\ map (@v_domain string string) (cs_verifiers (history Some Some Some es)) = ["v.example"; "v.example"; "v.example"] /\
    map v_outcome (cs_verifiers (history Some Some Some es)) = [Some ("key1", "cert1", "cert1"); Some ("key2", "cert2", "cert2"); Some ("key1", "cert2", "cert2")].
Proof.
  exists [toy_start "v.example" "cert1" "key1"; toy_start "v.example" "cert2" "key2"; ECreate 0; ECreate 1; EWrite 0 1000; EWrite 1 60; EStop 1; toy_start "v.example" "cert3" "key3"].
  split; [|split; vm_compute; reflexivity].
  intros d rd g H. cbn in H. repeat destruct H as [H|H]; try discriminate; try contradiction; injection H as <- _ _; reflexivity.
Qed.
