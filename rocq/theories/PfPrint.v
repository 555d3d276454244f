(** Proofs about what stands on the console of the command line verifier. *)
From Coq Require Import Lia ZArith.
From Verif Require Import Base BaseFacts Utf8 Json JsonFacts JsonText JsonTextFacts JsonPretty PrettyFacts Base64Facts Url UrlEncoded Params Dcql Request Response Session
  Builder Server ExVerifier ExHttp ExWeb ExCli ExConsole ExCliWeb ExPrint.
From Verif Require Import PfBuilder PfExCli SpecObject SpecExample PfExample SpecVerifierEx PfExServer HostFacts SpecWeb SpecConsole PfConsole SpecCliWeb PfCliWeb SpecPrint.

(* ------------------------------------------------------------ lines *)
Lemma has_char_cut c s : has_char c s = false -> forall x y, s <> x +:+ String c y.
Proof.
  intros H x y ->. induction x as [|d x IH]; cbn [String.append has_char] in H.
  - now rewrite Ascii.eqb_refl in H.
  - apply orb_false_iff in H as [_ H]. auto.
Qed.
Lemma cut_has_char c s : (forall x y, s <> x +:+ String c y) -> has_char c s = false.
Proof.
  induction s as [|d s IH]; [reflexivity|]. intros H. cbn [has_char]. apply orb_false_iff. split.
  - apply Ascii.eqb_neq. intros <-. now apply (H "" s).
  - apply IH. intros x y ->. now apply (H (String d x) y).
Qed.
Lemma line_split l t : line_in l t -> In l (split_all line_feed t).
Proof.
  intros (a & b & -> & N & A & B). apply cut_has_char in N.
  assert (T : In l (split_all line_feed (l +:+ b))).
  { destruct B as [->|(y & ->)]; [rewrite sapp_nil_r, (split_none _ _ N); now left|]. rewrite split_app, (split_none _ _ N). now left. }
  destruct A as [->|(x & ->)]; [exact T|]. rewrite sapp_assoc. cbn [String.append]. rewrite split_app. apply in_or_app. now right.
Qed.
Lemma console_lines cs : forall l, In l (split_all line_feed (console cs)) -> l = "" \/ exists c, In c cs /\ In l (split_all line_feed c).
Proof.
  induction cs as [|c cs IH]; cbn [console]; intros l I.
  - destruct I as [<-|[]]. now left.
  - change (newline +:+ console cs) with (String line_feed (console cs)) in I. rewrite split_app in I. apply in_app_or in I as [I|I].
    + right. exists c. split; [now left|exact I].
    + destruct (IH l I) as [->|(c' & I' & J)]; [now left|]. right. exists c'. split; [now right|exact J].
Qed.

(* ------------------------------------------------------------ JSON that flows *)
Fixpoint flow (s : string) : bool :=
  match s with
  | EmptyString => true
  | String c r => (if Ascii.eqb line_feed c then starts_with "  " r || starts_with "}" r else (32 <=? byte c)%N) && flow r
  end.
Lemma starts_app p a b : starts_with p a = true -> starts_with p (a +:+ b) = true.
Proof. rewrite !starts_with_iff. intros (r & ->). exists (r +:+ b). now rewrite sapp_assoc. Qed.
Lemma flow_app a b : flow a = true -> flow b = true -> flow (a +:+ b) = true.
Proof.
  induction a as [|c a IH]; [auto|]. cbn [flow String.append]. rewrite !andb_true_iff. intros [H1 H2] B. split; [|auto].
  destruct (Ascii.eqb line_feed c); [|exact H1]. apply orb_true_iff in H1 as [H1|H1]; rewrite (starts_app _ _ _ H1); [reflexivity|apply orb_true_r].
Qed.
Definition escape_flows (c : ascii) : bool := flow (escape_char c).
Lemma escape_char_flow c : flow (escape_char c) = true.
Proof.
  assert (H : forallb escape_flows all_ascii = true) by (vm_compute; reflexivity).
  rewrite forallb_forall in H. exact (H c (all_ascii_in c)).
Qed.
Lemma escape_flow s : flow (escape s) = true.
Proof. induction s as [|c s IH]; [reflexivity|]. cbn [escape]. apply flow_app; [apply escape_char_flow|exact IH]. Qed.
Lemma print_str_flow s : flow (print_str s) = true.
Proof. change (print_str s) with (s1 dquote +:+ (escape s +:+ s1 dquote)). apply flow_app; [reflexivity|]. apply flow_app; [apply escape_flow|reflexivity]. Qed.
Lemma digits_flow s : str_all is_digit s = true -> flow s = true.
Proof.
  induction s as [|c s IH]; [reflexivity|]. cbn [str_all flow]. rewrite andb_true_iff. intros [H1 H2]. rewrite (IH H2), andb_true_r.
  unfold is_digit in H1. apply andb_true_iff in H1 as [H1 _]. apply N.leb_le in H1.
  destruct (Ascii.eqb_spec line_feed c) as [<-|_]; [exfalso; revert H1; vm_compute; auto|]. apply N.leb_le. lia.
Qed.
Lemma join_flow l : Forall (fun s => flow s = true) l -> flow (join "," l) = true.
Proof.
  induction l as [|x l IH]; [reflexivity|]. intros H. inversion H; subst. destruct l as [|y l]; [assumption|].
  change (join "," (x :: y :: l)) with (x +:+ "," +:+ join "," (y :: l)). apply flow_app; [assumption|]. apply flow_app; [reflexivity|auto].
Qed.
Lemma line_of_flow s : flow s = true -> match split_all line_feed s with [] => False | f :: r =>
  (exists t, s = f +:+ t) /\ Forall (fun l => exists t, l = "  " +:+ t \/ l = "}" +:+ t) r end.
Proof.
  induction s as [|c s IH]; [intros _; cbn; split; [now exists ""|constructor]|]. cbn [flow split_all]. rewrite andb_true_iff. intros [H1 H2]. specialize (IH H2).
  destruct (Ascii.eqb line_feed c) eqn:E.
  - split; [eexists; reflexivity|]. pose proof (split_all_nonempty line_feed s) as N. destruct (split_all line_feed s) as [|f r] eqn:Es; [easy|].
    destruct IH as ((t & Et) & F). constructor; [|exact F].
    assert (G : forall p, has_char line_feed p = false -> starts_with p s = true -> exists u, f = p +:+ u).
    { intros p Hp S. apply starts_with_iff in S as (u & ->). clear -Es Hp. revert f r Es. induction p as [|d p IHp]; intros f r Es; [eexists; reflexivity|].
      cbn [has_char] in Hp. apply orb_false_iff in Hp as [Hd Hp]. cbn [String.append split_all] in Es. rewrite Hd in Es.
      destruct (split_all line_feed (p +:+ u)) as [|g q] eqn:Eg; [now apply split_all_nonempty in Eg|]. destruct (IHp Hp g q eq_refl) as (v & ->). injection Es as <- <-. now exists v. }
    apply orb_true_iff in H1 as [S|S]; [destruct (G "  " eq_refl S) as (u & ->)|destruct (G "}" eq_refl S) as (u & ->)]; exists u; auto.
  - destruct (split_all line_feed s) as [|f r]; [contradiction|]. destruct IH as ((t & ->) & F). split; [now exists t|exact F].
Qed.
Lemma flow_plain s : flow s = true -> forall x c y, s = x +:+ String c y -> c = line_feed \/ (32 <= byte c)%N.
Proof.
  intros H x c y ->. induction x as [|d x IH]; cbn [String.append flow] in H; apply andb_true_iff in H as [H1 H2]; [|auto].
  destruct (Ascii.eqb_spec line_feed c) as [<-|_]; [now left|]. right. now apply N.leb_le.
Qed.

(* ------------------------------------------------------------ what is shown *)
Definition seen (t : vp_token) : json :=
  JObj [("credential_query_ids", JArr (map JStr (map fst t))); ("credentials_received", JInt (Z.of_nat (length t)))].
Definition REASON : string := "Encrypted responses (direct_post.jwt) not supported in this example".
Definition good_display (d : display) : Prop :=
  match d with DInitializing => False | DSuccess info => exists t, info = seen t | DFailed r => r = REASON | _ => True end.
Fixpoint good_prog (p : cprog) : Prop :=
  match p with
  | CDone _ => True
  | CSet d k => good_display d /\ good_prog k
  | CRead k => good_prog k
  | CShow d k => good_display d /\ good_prog k
  | CNotify k => good_prog k
  | CGet _ k => forall x, good_prog (k x)
  | CUpdate _ _ k => forall x, good_prog (k x)
  | CInitiate _ k => forall x, good_prog (k x)
  | ExConsole.CRemove _ k => forall x, good_prog (k x)
  | CValidate _ _ k => forall x, good_prog (k x)
  end.
Lemma within_good {A} (p : prog A) k : (forall x, good_prog (k x)) -> good_prog (within p k).
Proof. intros H. induction p; cbn [within good_prog]; auto. Qed.
Lemma handler_good h : good_prog (chandler h).
Proof.
  destruct h as [sid|sid body]; unfold chandler.
  - destruct (uuid_of_string sid); [|exact I]. apply within_good. intros [jwt|e]; cbn; auto.
  - destruct (utf8_valid body); [|exact I]. destruct (uuid_of_string sid); [|exact I]. cbn [good_prog good_display]. split; [exact I|].
    destruct (from_form body); [|exact I]. apply within_good. intros x. exact I.
Qed.
Lemma validator_good s r : good_display (shown_for (cli_validator s r)).
Proof. destruct r as [t|j]; cbn; [|reflexivity]. exists (ur_vp_token t). reflexivity. Qed.
Record good_sys (x : ksys) : Prop := {
  g_display : good_display (ks_display x);
  g_tasks : Forall (fun t => good_prog (snd t)) (ks_tasks x);
  g_log : forall q d, In (KFor q (KShown d)) (ks_log x) -> good_display d
}.
Lemma act_good h s p s' p' new : cact h s p s' p' new -> good_display (snd (fst s)) -> good_prog p ->
  good_display (snd (fst s')) /\ good_prog p' /\ forall d, In (EvShown h d) new -> good_display d.
Proof.
  destruct 1 as [| | | |m d n u k ct|m d n u st k ct m' y Hu|m d n s0 k ct m' y Hi|m d n u k ct m' y Hr|]; cbn [fst snd good_prog]; intros D P.
  - destruct P as [P1 P2]. split; [exact P1|]. split; [exact P2|]. intros ? [].
  - split; [exact D|]. split; [split; [exact D|exact P]|]. intros ? [].
  - destruct P as [P1 P2]. split; [exact D|]. split; [exact P2|]. intros ? [[= <-]|[]]. exact P1.
  - split; [exact D|]. split; [exact P|]. intros ? [].
  - split; [exact D|]. split; [apply P|]. intros ? [E|[]]; discriminate.
  - split; [exact D|]. split; [apply P|]. intros ? [E|[]]; discriminate.
  - split; [exact D|]. split; [apply P|]. intros ? [E|[]]; discriminate.
  - split; [exact D|]. split; [apply P|]. intros ? [E|[]]; discriminate.
  - split; [exact D|]. split; [|intros ? [E|[]]; discriminate]. unfold validating. cbn [good_prog]. split; [apply validator_good|]. apply P.
Qed.
Lemma entry_shown q new q' d : In (KFor q' (KShown d)) (map (entry_for q) new) -> exists h, In (EvShown h d) new.
Proof. intros I. apply in_map_iff in I as (e & E & J). destruct e; try discriminate. injection E as -> ->. eauto. Qed.
Lemma act_owner h s p s' p' new h' d : cact h s p s' p' new -> In (EvShown h' d) new -> h' = h.
Proof. destruct 1; cbn; intros [E|[]] || intros []; try discriminate. now injection E as <-. Qed.
Lemma run_good m x : ksteps (ks_init m) x -> good_sys x.
Proof.
  intros X. remember (ks_init m) as z eqn:Ez. induction X as [x|x y z X IH S].
  - subst. split; cbn; [exact I|constructor|intros ? ? []].
  - destruct (IH Ez) as [D T L]. clear IH X Ez.
    destruct S as [m0 d ts n l q h R|m0 d ts n l q code R|m0 d n m' d' n' pre q h p p' post o l new R A|m0 d n pre q r post o l|m0 d n pre q p post o l|m0 d ts l|m0 d ts n l];
      cbn [ks_display ks_tasks ks_log] in *; split; cbn [ks_display ks_tasks ks_log]; auto.
    + constructor; [apply handler_good|exact T].
    + intros q' d' [E|I]; [discriminate|eauto].
    + intros q' d' [E|I]; [discriminate|eauto].
    + apply Forall_app in T as [T1 T2]. apply Forall_cons_iff in T2 as [T2 T3]. destruct (act_good _ _ _ _ _ _ A D T2) as (G & _). exact G.
    + apply Forall_app in T as [T1 T2]. apply Forall_cons_iff in T2 as [T2 T3]. destruct (act_good _ _ _ _ _ _ A D T2) as (_ & G & _). apply Forall_app. split; [exact T1|]. constructor; assumption.
    + apply Forall_app in T as [T1 T2]. apply Forall_cons_iff in T2 as [T2 T3]. destruct (act_good _ _ _ _ _ _ A D T2) as (_ & _ & G).
      intros q' d0 I. apply in_app_or in I as [I|I]; [|eauto]. apply entry_shown in I as (h' & I). pose proof (act_owner _ _ _ _ _ _ _ _ A I) as ->. auto.
    + apply Forall_app in T as [T1 T2]. apply Forall_cons_iff in T2 as [T2 T3]. now apply Forall_app.
    + intros q' d' [E|I]; [discriminate|eauto].
    + apply Forall_app in T as [T1 T2]. apply Forall_cons_iff in T2 as [T2 T3]. now apply Forall_app.
    + intros q' d' [E|I]; [discriminate|eauto].
    + intros q' d' [E|I]; [discriminate|eauto].
Qed.

Lemma flow_close ind : flow (newline +:+ "  " +:+ ind) = flow ind.
Proof. cbn [newline s1 String.append flow]. cbn. reflexivity. Qed.
Lemma seen_flow t : flow (jpretty "" (seen t)) = true /\ exists r, jpretty "" (seen t) = String "{" r.
Proof.
  split; [|eexists; reflexivity]. unfold seen. rewrite jpretty_obj. apply flow_app; [reflexivity|]. apply flow_app; [|reflexivity].
  apply join_flow. cbn [map]. constructor; [|constructor; [|constructor]]; unfold pmember_text; cbn [fst snd].
  - rewrite <- sapp_assoc. apply flow_app; [reflexivity|]. apply flow_app; [apply print_str_flow|]. apply flow_app; [reflexivity|].
    destruct (map JStr (map fst t)) as [|x l] eqn:E; [reflexivity|]. rewrite jpretty_arr. apply flow_app; [reflexivity|]. apply flow_app; [|reflexivity].
    apply join_flow. rewrite <- E. apply Forall_forall. intros s I. rewrite map_map, map_map in I. apply in_map_iff in I as (e & <- & _).
    unfold elem_text. rewrite <- sapp_assoc. apply flow_app; [reflexivity|]. cbn [jpretty jprint]. apply print_str_flow.
  - rewrite <- sapp_assoc. apply flow_app; [reflexivity|]. apply flow_app; [apply print_str_flow|]. apply flow_app; [reflexivity|].
    cbn [jpretty jprint]. destruct (Z.of_nat (length t)) as [|p|p]; cbn [dec_Z]; [reflexivity|apply digits_flow, dec_N_digits|].
    change (String "-" (dec_N (Npos p))) with ("-" +:+ dec_N (Npos p)). apply flow_app; [reflexivity|apply digits_flow, dec_N_digits].
Qed.

Definition plain_message (c : string) : bool := negb (has_char line_feed c) && flow c.
Lemma call_kinds m x c : ksteps (ks_init m) x -> (exists e, In e (ks_log x) /\ In c (prints e)) ->
  In c messages \/ exists t q, c = jpretty "" (seen t) /\ In (KFor q (KShown (DSuccess (seen t)))) (ks_log x).
Proof.
  intros X (e & I & P). pose proof (g_log _ (run_good m x X)) as G.
  destruct e as [q [| |d|]| |]; cbn [prints] in P; try contradiction.
  - specialize (G _ _ I). destruct d as [| | | |info|reason]; cbn [good_display] in G; cbn [print_status In] in P; [contradiction| | | | |].
    1-3: left; cbn [messages In]; intuition (subst; auto 20).
    + destruct G as (t & ->). repeat (destruct P as [<-|P]; [first [right; exists t, q; split; [reflexivity|exact I]|left; cbn [messages In]; unfold rule; auto 20]|]). contradiction.
    + subst reason. left. repeat (destruct P as [<-|P]; [unfold messages, rule, REASON; cbn [In String.append]; auto 20|]). contradiction.
  - left. cbn [print_completed In] in P. cbn [messages In]. intuition (subst; auto 20).
  - left. cbn [print_interrupted In] in P. cbn [messages In]. intuition (subst; auto 20).
Qed.
Lemma messages_plain c : In c messages -> plain_message c = true.
Proof. assert (H : forallb plain_message messages = true) by (vm_compute; reflexivity). rewrite forallb_forall in H. auto. Qed.

(** C118: whatever wallets and others send, every line on the console is one of the program's own messages or a line of indented JSON. *)
Lemma c118_lines_pf :
  forall (m : store) (x : ksys) (calls : list string) (line : string),
    ksteps (ks_init m) x -> calls_of (ks_log x) calls -> line_in line (console calls) ->
    In line messages \/ json_line line.
Proof.
  intros m x cs l X C L. apply line_split in L. destruct (console_lines _ _ L) as [->|(c & I & J)]; [left; now left|].
  destruct (call_kinds m x c X (C c I)) as [M|(t & q & -> & _)].
  - left. pose proof (messages_plain c M) as P. unfold plain_message in P. apply andb_true_iff in P as [P _]. apply negb_true_iff in P. rewrite (split_none _ _ P) in J. destruct J as [<-|[]]. exact M.
  - right. destruct (seen_flow t) as (F & r & E). pose proof (line_of_flow _ F) as K. destruct (split_all line_feed (jpretty "" (seen t))) as [|f ls] eqn:Es; [contradiction|].
    destruct K as ((u & Eu) & K). destruct J as [<-|J].
    + rewrite E in Es. cbn [split_all] in Es. change (Ascii.eqb line_feed "{") with false in Es. cbv iota in Es. destruct (split_all line_feed r) as [|g gs]; injection Es as <- <-; eexists; left; reflexivity.
    + rewrite Forall_forall in K. destruct (K l J) as (v & [->| ->]); exists v; auto.
Qed.

(* ------------------------------------------------------------ what the messages say *)
Lemma said m x cs l r : ksteps (ks_init m) x -> calls_of (ks_log x) cs -> line_in l (console cs) -> l = String "[" r ->
  exists e, In e (ks_log x) /\ In l (prints e) /\ forall q info, e = KFor q (KShown (DSuccess info)) -> forall u, jpretty "" info <> String "[" u.
Proof.
  intros X C L E.
  enough (exists e, In e (ks_log x) /\ In l (prints e)) as (e & I & P).
  { exists e. split; [exact I|]. split; [exact P|]. intros q info -> u. pose proof (g_log _ (run_good m x X) _ _ I) as (t & ->). destruct (seen_flow t) as (_ & v & ->). discriminate. }
  apply line_split in L. destruct (console_lines _ _ L) as [->|(c & I & J)]; [discriminate|].
  destruct (C c I) as (e & Ie & P). destruct (call_kinds m x c X (C c I)) as [M|(t & q & -> & _)].
  - pose proof (messages_plain c M) as Q. unfold plain_message in Q. apply andb_true_iff in Q as [Q _]. apply negb_true_iff in Q. rewrite (split_none _ _ Q) in J. destruct J as [<-|[]]. eauto.
  - exfalso. destruct (seen_flow t) as (F & u & Eu). pose proof (line_of_flow _ F) as K. rewrite Eu in *. cbn [split_all] in J, K. change (Ascii.eqb line_feed "{") with false in J, K. cbv iota in J, K.
    subst l. destruct (split_all line_feed u) as [|g gs]; (destruct J as [J|J]; [discriminate|]); [destruct J|].
    destruct K as [_ K]. rewrite Forall_forall in K. destruct (K _ J) as (v & [E|E]); discriminate.
Qed.
Lemma judged_mono id l l' q r o : incl l l' -> judged id l q r o -> judged id l' q r o.
Proof. intros I (P & s & H). split; [exact P|]. exists s. now apply I. Qed.
Lemma after_incl {A} (a : list A) x b : incl b (a ++ x :: b).
Proof. intros y I. apply in_or_app. right. now right. Qed.
Ltac never P := cbn [prints print_status print_completed print_interrupted In] in P; unfold rule in P;
  repeat match type of P with _ \/ _ => destruct P as [P|P]; [try discriminate P|] end; try contradiction.

(** C118: a line that announces a success, a failure, that the request was fetched or that the verification is complete is on the
    console only if a response posted for this session was found good or was refused, the request was fetched, or the program has completed. *)
Lemma c118_says_pf :
  forall (url_parse : string -> option url) (public : url) (types : list string) (fresh id : uuid) (m : store) (dest : url)
      (x : ksys) (calls : list string) (line : string),
    cli_setup url_parse public types fresh id = (m, Ok dest) -> ksteps (ks_init m) x ->
    calls_of (ks_log x) calls -> line_in line (console calls) ->
    (line = "[+] Status: SUCCESS" -> exists q t info, judged id (ks_log x) q (Unencoded t) (OSuccess info))
    /\ (line = "[-] Status: FAILED" -> exists q jwe reason, judged id (ks_log x) q (Jwt jwe) (OFailure reason))
    /\ (line = "[*] Status: REQUEST FETCHED" -> exists q s, fetches "request" q id /\ In (KFor q (KDoes (EvGet id (Ok s)))) (ks_log x))
    /\ (line = "[*] Verification complete. Shutting down..." ->
          In KCompleted (ks_log x) /\ exists q r o, judged id (ks_log x) q r o).
Proof.
  intros up public types fresh id m dest x cs l H X C L.
  assert (T : forall q d, In (KFor q (KShown d)) (ks_log x) -> exists later earlier, ks_log x = (later ++ KFor q (KShown d) :: earlier)%list /\ true_on_console id earlier d).
  { intros q d I. apply in_split in I as (la & ea & E). exists la, ea. split; [exact E|]. exact (c109_truthful_pf _ _ _ _ _ _ _ _ _ _ _ _ H X E). }
  assert (N : forall q d e, In (KFor q (KShown d)) (ks_log x) -> d = e -> exists earlier, incl earlier (ks_log x) /\ true_on_console id earlier e).
  { intros q d e I <-. destruct (T q d I) as (la & ea & E & V). exists ea. split; [rewrite E; apply after_incl|exact V]. }
  split; [|split; [|split]]; intros E; destruct (said m x cs l _ X C L E) as (e & I & P & J); rewrite E in P;
    (destruct e as [q [| |d|]| |]; [contradiction|contradiction|destruct d as [| | | |info|reason]|contradiction| |]; try (exfalso; never P; now apply (J _ _ eq_refl _ P))).
  - destruct (N _ _ _ I eq_refl) as (ea & In' & q' & t & V & _). exists q', t, info. eapply judged_mono; [exact In'|exact V].
  - destruct (N _ _ _ I eq_refl) as (ea & In' & q' & jwe & V). exists q', jwe, reason. eapply judged_mono; [exact In'|exact V].
  - destruct (N _ _ _ I eq_refl) as (ea & In' & q' & s & F & V). exists q', s. auto.
  - split; [exact I|]. apply in_split in I as (la & ea & El). destruct (c109_completed_pf _ _ _ _ _ _ _ _ _ _ H X El) as (q & r & o & V). exists q, r, o.
    eapply judged_mono; [|exact V]. rewrite El. apply after_incl.
Qed.

(** C118: the console holds no control characters of ASCII other than line ends (but for DEL). *)
Lemma c118_plain_pf :
  forall (m : store) (x : ksys) (calls : list string) (before after : string) (c : ascii),
    ksteps (ks_init m) x -> calls_of (ks_log x) calls -> console calls = before +:+ String c after ->
    c = line_feed \/ (32 <= byte c)%N.
Proof.
  intros m x cs a b c X C. revert a. induction cs as [|k cs IH]; intros a E; cbn [console] in E; [destruct a; discriminate|].
  assert (F : flow k = true).
  { destruct (call_kinds m x k X (C k (or_introl eq_refl))) as [M|(t & q & -> & _)]; [|apply seen_flow].
    pose proof (messages_plain k M) as P. unfold plain_message in P. now apply andb_true_iff in P as [_ P]. }
  assert (C' : calls_of (ks_log x) cs) by (intros y I; apply C; now right). specialize (IH C'). clear C C'.
  change (newline +:+ console cs) with (String line_feed (console cs)) in E. revert a E. induction k as [|d k IHk]; intros a E; cbn [String.append] in E.
  - destruct a as [|e a]; injection E as E1 E2; [now left|]. exact (IH a E2).
  - destruct a as [|e a]; injection E as E1 E2.
    + subst d. apply (flow_plain _ F "" c k eq_refl).
    + cbn [flow] in F. apply andb_true_iff in F as [_ F]. exact (IHk F a E2).
Qed.

(* ------------------------------------------------------------ the verdict can be read *)
Lemma insert_keys i v t k : In k (map fst (vp_insert i v t)) -> k = i \/ In k (map fst t).
Proof.
  induction t as [|[j w] t IH]; cbn [vp_insert map fst]; [intros [<-|[]]; auto|]. destruct (String.eqb i j).
  - cbn. auto.
  - cbn. intros [<-|J]; [auto|]. destruct (IH J); auto.
Qed.
Lemma entries_keys m t k : vp_of_entries m = Ok t -> In k (map fst t) -> In k (map fst m).
Proof.
  unfold vp_of_entries. intros H I. apply rbind_ok in H as (l & Hl & H). injection H as <-.
  assert (Kl : map fst l = map fst m).
  { clear I. revert l Hl. induction m as [|[i j] m IH]; intros l Hl; cbn [mapM] in Hl; [injection Hl as <-; reflexivity|].
    apply rbind_ok in Hl as (y & Hy & Hl). apply rbind_ok in Hl as (ys & Hys & Hl). injection Hl as <-. apply rbind_ok in Hy as (is & _ & Hy). injection Hy as <-. cbn. f_equal. auto. }
  rewrite <- Kl. clear Kl Hl m.
  assert (G : forall l a, In k (map fst (fold_left (fun t e => vp_insert (fst e) (snd e) t) l a)) -> In k (map fst a) \/ In k (map fst l)).
  { clear. induction l as [|[i v] l IH]; intros a I; [now left|]. cbn [fold_left fst snd] in I. destruct (IH _ I) as [J|J]; [|right; now right].
    apply insert_keys in J as [->|J]; [right; now left|now left]. }
  destruct (G _ _ I) as [[]|J]. exact J.
Qed.
Lemma posted_ids body t : from_form body = Ok (Unencoded t) -> forall k, In k (map fst (ur_vp_token t)) -> utf8_valid k = true.
Proof.
  unfold from_form. intros H k I.
  assert (V : exists vt, vp_of_text vt = Ok (ur_vp_token t)).
  { destruct (field_values "response" (form_parse body)) as [|r [|r' rs]]; [|discriminate|];
      apply rbind_ok in H as (st & _ & H); apply rbind_ok in H as (vt & _ & H); apply rbind_ok in H as (tk & Hv & H); injection H as <-; eauto. }
  destruct V as (vt & V). unfold vp_of_text in V. destruct (parse_raw vt) as [j|] eqn:Ej; [|discriminate]. apply parse_raw_ok in Ej as (Ok & _).
  destruct j as [| | | | | |o]; try discriminate. pose proof (entries_keys _ _ _ V I) as J. cbn [jtext_ok] in Ok. rewrite forallb_forall in Ok.
  apply in_map_iff in J as (kv & <- & J). specialize (Ok _ J). now apply andb_true_iff in Ok as [Ok _].
Qed.
Lemma seen_text t : (Z.of_nat (length t) < 2 ^ 64)%Z -> (forall k, In k (map fst t) -> utf8_valid k = true) -> parse_raw (jpretty "" (seen t)) = Some (seen t).
Proof.
  intros B V. apply parse_raw_pretty.
  - unfold seen. cbn [jtext_ok forallb fst snd]. rewrite !andb_true_iff. repeat split; try reflexivity.
    + apply forallb_forall. intros j I. rewrite map_map in I. apply in_map_iff in I as (e & <- & I). cbn [jtext_ok]. apply V, in_map, I.
    + apply GrammarFacts.int_ok_iff. lia.
  - unfold seen. cbn [jdepth map fold_right snd].
    assert (D : fold_right Nat.max 0 (map jdepth (map JStr (map fst t))) = 0) by (induction t as [|e t IH]; [reflexivity|cbn in *; apply IH; [lia|intros; apply V; now right]]).
    change ((fix jdepth (j : json) : nat := match j with JArr l => S (fold_right Nat.max 0 (map jdepth l)) | JObj m => S (fold_right Nat.max 0 (map (fun kv => jdepth (snd kv)) m)) | _ => 0 end)) with jdepth. rewrite D. cbn. lia.
Qed.

Lemma seen_ids (t t' : vp_token) : members_are (seen t)
    [("credentials_received", JInt (Z.of_nat (length t'))); ("credential_query_ids", JArr (map JStr (map fst t')))] ->
  map fst t = map fst t'.
Proof.
  intros M. apply (member_in _ _ "credential_query_ids" (JArr (map JStr (map fst t')))) in M as (o & E & G); [|right; now left].
  injection E as <-. cbn [obj_get String.eqb Ascii.eqb Bool.eqb] in G. injection G as G.
  assert (J : forall l l', map JStr l = map JStr l' -> l = l').
  { induction l as [|a l IH]; intros [|b l'] H; try discriminate; [reflexivity|]. injection H as -> H. f_equal. auto. }
  now apply J.
Qed.
(** C118: what is printed with a success is JSON text for what the response contained: how many credentials, and for which queries. *)
Lemma c118_verdict_pf :
  forall (url_parse : string -> option url) (public : url) (types : list string) (fresh id : uuid) (m : store) (dest : url)
      (x : ksys) (q : hrequest) (info : json),
    cli_setup url_parse public types fresh id = (m, Ok dest) -> ksteps (ks_init m) x ->
    In (KFor q (KShown (DSuccess info))) (ks_log x) ->
    exists q' t, judged id (ks_log x) q' (Unencoded t) (OSuccess info)
      /\ ((Z.of_nat (length (ur_vp_token t)) < 2 ^ 64)%Z ->
          exists call info', In call (prints (KFor q (KShown (DSuccess info)))) /\ parse_raw call = Some info'
            /\ members_are info' [("credentials_received", JInt (Z.of_nat (length (ur_vp_token t))));
                                  ("credential_query_ids", JArr (map JStr (map fst (ur_vp_token t))))]).
Proof.
  intros up public types fresh id m dest x q info H X I. pose proof (g_log _ (run_good m x X) _ _ I) as (t0 & ->).
  apply in_split in I as (la & ea & E). destruct (c109_truthful_pf _ _ _ _ _ _ _ _ _ _ _ _ H X E) as (q' & t & J & M). exists q', t.
  split; [eapply judged_mono; [|exact J]; rewrite E; apply after_incl|]. intros B. exists (jpretty "" (seen t0)), (seen t0). split; [cbn [prints print_status In]; auto 12|]. split; [|exact M].
  pose proof (seen_ids _ _ M) as K. apply seen_text.
  - rewrite <- (map_length fst), K, map_length. exact B.
  - intros k Ik. rewrite K in Ik. destruct J as ((_ & _ & F) & _). exact (posted_ids _ _ F k Ik).
Qed.

(* ------------------------------------------------------------ executions *)
Lemma shown_run (id : uuid) (body : string) (r : auth_response) (m : store) (s : session) :
  utf8_valid body = true -> from_form body = Ok r -> st_get id m = Some s -> uuid_of_string (uuid_str id) = Some id ->
  cli_dispatch (web_post ("/response/" +:+ uuid_str id) body) = CTo (CResponse (uuid_str id) body) ->
  exists x, ksteps (ks_init m) x /\ In (KFor (web_post ("/response/" +:+ uuid_str id) body) (KShown (shown_for (cli_validator s r)))) (ks_log x).
Proof.
  intros V F G U D. pose proof (until_set m DWaiting [] false [] (uuid_str id) body id r s V U F G) as X. cbn beta zeta in X. fold (cs_init m) in X.
  eapply act_first in X; [|apply c_read]. eapply act_first in X; [|apply c_show].
  destruct (lift_steps _ _ m _ D X) as (_ & K).
  { cbn [cs_log app In]. intros h' I. repeat (destruct I as [I|I]; [first [discriminate I|now injection I as <-]|]). contradiction. }
  eexists. split; [exact K|]. unfold lifted. cbn [ks_log cs_log app map entry_for In]. now left.
Qed.
Lemma toy_shown body r : utf8_valid body = true -> from_form body = Ok r ->
  cli_dispatch (web_post ("/response/" +:+ uuid_str 7%N) body) = CTo (CResponse (uuid_str 7%N) body) ->
  exists dest x s, cli_setup simple_parse (toy_url "https://v.example/") ["ldp_vc"] 1%N 7%N = (fst cli_toy, Ok dest) /\ ksteps (ks_init (fst cli_toy)) x
    /\ In (KFor (web_post ("/response/" +:+ uuid_str 7%N) body) (KShown (shown_for (cli_validator s r)))) (ks_log x).
Proof.
  intros V F D. destruct toy_starts as (dest & St). destruct toy_stored as (s & G & _).
  destruct (shown_run 7%N body r (fst cli_toy) s V F G ltac:(reflexivity) D) as (x & X & I). exists dest, x, s. auto.
Qed.
(** A wallet that tries to write on the console: the identifier ends the line and announces a success. *)
Definition forging : string := "vp_token=%7B%22a%5Cn%5B%2B%5D+Status%3A+SUCCESS%22%3A%5B%5D%7D".
Definition forging_ids : list string := ["a" +:+ String line_feed "[+] Status: SUCCESS"].
Lemma forging_reads : exists t, from_form forging = Ok (Unencoded t) /\ map fst (ur_vp_token t) = forging_ids.
Proof. vm_compute. eexists. split; reflexivity. Qed.
Lemma forging_run : exists dest x q t, cli_setup simple_parse (toy_url "https://v.example/") ["ldp_vc"] 1%N 7%N = (fst cli_toy, Ok dest)
  /\ ksteps (ks_init (fst cli_toy)) x /\ In (KFor q (KShown (DSuccess (seen t)))) (ks_log x) /\ map fst t = forging_ids.
Proof.
  destruct forging_reads as (t & F & K). destruct (toy_shown forging _ ltac:(reflexivity) F ltac:(reflexivity)) as (dest & x & s & St & X & I).
  exists dest, x, (web_post ("/response/" +:+ uuid_str 7%N) forging), (ur_vp_token t). auto.
Qed.
Example c118_lines_ex : exists x calls line, ksteps (ks_init (fst cli_toy)) x /\ calls_of (ks_log x) calls /\ line_in line (console calls)
  /\ line = "    " +:+ print_str (hd "" forging_ids).
Proof.
  destruct forging_run as (dest & x & q & t & _ & X & I & K). exists x, [jpretty "" (seen t)], ("    " +:+ print_str (hd "" forging_ids)). split; [exact X|]. split.
  { intros c [<-|[]]. exists (KFor q (KShown (DSuccess (seen t)))). split; [exact I|]. cbn [prints print_status In]. auto 12. }
  split; [|reflexivity].
  assert (E : console [jpretty "" (seen t)] = console [jpretty "" (JObj [("credential_query_ids", JArr (map JStr forging_ids)); ("credentials_received", JInt (Z.of_nat (length forging_ids)))])]).
  { unfold seen. rewrite K. rewrite <- (map_length fst t), K. reflexivity. }
  rewrite E. exists ("{" +:+ newline +:+ "  " +:+ print_str "credential_query_ids" +:+ ": [" +:+ newline).
  exists (newline +:+ "  ]," +:+ newline +:+ "  " +:+ print_str "credentials_received" +:+ ": 1" +:+ newline +:+ "}" +:+ newline).
  split; [reflexivity|]. split; [apply has_char_cut; reflexivity|]. split; right.
  - exists ("{" +:+ newline +:+ "  " +:+ print_str "credential_query_ids" +:+ ": ["). reflexivity.
  - eexists. reflexivity.
Qed.
Lemma success_printed x q info : In (KFor q (KShown (DSuccess info))) (ks_log x) -> calls_of (ks_log x) ["[+] Status: SUCCESS"].
Proof. intros I c [<-|[]]. exists (KFor q (KShown (DSuccess info))). split; [exact I|]. cbn [prints print_status In]. auto 12. Qed.
Example c118_says_ex : exists dest x calls, cli_setup simple_parse (toy_url "https://v.example/") ["ldp_vc"] 1%N 7%N = (fst cli_toy, Ok dest)
  /\ ksteps (ks_init (fst cli_toy)) x /\ calls_of (ks_log x) calls /\ line_in "[+] Status: SUCCESS" (console calls).
Proof.
  destruct forging_run as (dest & x & q & t & St & X & I & _). exists dest, x, ["[+] Status: SUCCESS"]. split; [exact St|]. split; [exact X|]. split; [exact (success_printed x q _ I)|].
  exists "", newline. split; [reflexivity|]. split; [apply has_char_cut; reflexivity|]. split; [now left|]. right. exists "". reflexivity.
Qed.
Example c118_plain_ex : exists x calls c after, ksteps (ks_init (fst cli_toy)) x /\ calls_of (ks_log x) calls /\ console calls = "" +:+ String c after.
Proof.
  destruct forging_run as (dest & x & q & t & _ & X & I & _). exists x, ["[+] Status: SUCCESS"], "["%char, ("+] Status: SUCCESS" +:+ newline).
  split; [exact X|]. split; [exact (success_printed x q _ I)|reflexivity].
Qed.
Example c118_verdict_ex : exists dest x q info, cli_setup simple_parse (toy_url "https://v.example/") ["ldp_vc"] 1%N 7%N = (fst cli_toy, Ok dest)
  /\ ksteps (ks_init (fst cli_toy)) x /\ In (KFor q (KShown (DSuccess info))) (ks_log x).
Proof. destruct forging_run as (dest & x & q & t & St & X & I & _). eauto 8. Qed.

(** C118, refuted: that the console holds no control characters at all.  The control characters beyond ASCII go through as they are; this one
    (U+009B) starts a command to a terminal, here to clear the screen. *)
Definition clearing : string := "vp_token=%7B%22%C2%9B2J%22%3A%5B%5D%7D".
Lemma clearing_reads : exists t, from_form clearing = Ok (Unencoded t) /\ map fst (ur_vp_token t) = [String "194" (String "155" "2J")].
Proof. vm_compute. eexists. split; reflexivity. Qed.
Lemma c118_control_refuted_pf :
  exists (url_parse : string -> option url) (public : url) (types : list string) (fresh id : uuid) (m : store) (dest : url)
      (x : ksys) (calls : list string) (before after : string),
    cli_setup url_parse public types fresh id = (m, Ok dest) /\ ksteps (ks_init m) x /\ calls_of (ks_log x) calls
    /\ console calls = before +:+ String "194" (String "155" ("2J" +:+ after)).
Proof.
  destruct clearing_reads as (t & F & K). destruct (toy_shown clearing _ ltac:(reflexivity) F ltac:(reflexivity)) as (dest & x & s & St & X & I).
  exists simple_parse, (toy_url "https://v.example/"), ["ldp_vc"], 1%N, 7%N, (fst cli_toy), dest, x, [jpretty "" (seen (ur_vp_token t))].
  exists ("{" +:+ newline +:+ "  " +:+ print_str "credential_query_ids" +:+ ": [" +:+ newline +:+ "    " +:+ s1 dquote).
  exists (s1 dquote +:+ newline +:+ "  ]," +:+ newline +:+ "  " +:+ print_str "credentials_received" +:+ ": 1" +:+ newline +:+ "}" +:+ newline).
  split; [exact St|]. split; [exact X|]. split.
  { intros c [<-|[]]. eexists. split; [exact I|]. cbn [shown_for cli_validator prints print_status In]. auto 12. }
  unfold seen. rewrite K. rewrite <- (map_length fst (ur_vp_token t)), K. reflexivity.
Qed.
