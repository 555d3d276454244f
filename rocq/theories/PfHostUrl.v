(** Proofs about the hosts of web URLs. *)
From Coq Require Import Lia ZArith.
From Verif Require Import Base BaseFacts Utf8 Utf8Facts Base64Facts JsonText JsonTextFacts UrlEncoded UrlEncodedFacts Url WebUrl WebHost SpecWebUrl SpecHttpUri SpecHost PfWebUrl PfWebReads
  HttpUri PfHttpUri HostFacts PfIp PfHost ExCache ExStart SpecStart PfStart.

Lemma printed_host_of idna h scheme : idna_ok idna -> special scheme -> host (web_domain idna) web_ipv6 scheme h -> printed_host h.
Proof.
  intros Ok Sp [(a & -> & W)|[(_ & W)|[N _]]]; [| |contradiction].
  - left. apply c115_ipv6_pf in W as (l & A & P). now exists l, a.
  - right. apply c115_domain_pf in W as (d & Nd & Ne & [(Nu & n & A & P)|[Nu ->]]).
    + left. destruct (quad_name idna n h P) as (_ & _ & _ & At & _). eauto.
    + right. destruct (named_small idna d d Ok Nd) as (A & _ & S). auto.
Qed.
(** C115: web URLs read with these hosts: every host is an IPv6 or IPv4 address in its one printed form or a name of small
    letters that cannot be taken for an address; the URL is written as a text that is read as the same URL. *)
Lemma c115_urls_pf :
  forall idna, idna_ok idna -> forall s u, web_parse (web_domain idna) web_ipv6 s = Some u ->
    web_parse (web_domain idna) web_ipv6 (url_str u) = Some u
    /\ (special (u_scheme u) -> exists a user h p, u_auth u = Some a /\ a = user +:+ h +:+ p
          /\ userinfo user /\ port (u_scheme u) p /\ printed_host h).
Proof.
  intros idna Ok s u W. destruct (c115_hosts_pf idna Ok) as [H _]. split; [now apply (c112_reread_pf _ _ H s)|]. intros Sp.
  apply (proj1 (c112_normal_pf _ _ H)) in W as (_ & _ & _ & [(a & A & (user & h & p & -> & U & Hh & P & _) & _)|[(_ & N & _)|(_ & N & _)]]); [|contradiction|contradiction].
  exists (user +:+ h +:+ p), user, h, p. split; [exact A|]. split; [reflexivity|]. split; [exact U|]. split; [exact P|].
  exact (printed_host_of idna h (u_scheme u) Ok Sp Hh).
Qed.
Definition plain_web : string -> option url := web_parse (web_domain no_idna) web_ipv6.
Example c115_urls_ex :
  map (fun s => option_map url_str (plain_web s))
    ["https://0x7f.1:443/a"; "HTTP://V%2eExample/"; "https://me@[2001:DB8::0:1]:8443"; "https://1.2.3.4.5/"; "https://[1::2::3]/"; "https://a%2fb/"]
  = [Some "https://127.0.0.1/a"; Some "http://v.example/"; Some "https://me@[2001:db8::1]:8443/"; None; None; None].
Proof. vm_compute. reflexivity. Qed.

Lemma user_at user : userinfo user -> user = "" \/ exists w, user = w +:+ "@".
Proof.
  intros [->|[(w & -> & _)|(w & q & -> & _)]]; [now left|right; eauto|]. right. exists (w +:+ ":" +:+ q). now rewrite !sapp_assoc.
Qed.
Lemma port_colon scheme p : port scheme p -> (p = "" \/ exists q, p = ":" +:+ q) /\ has_char "@" p = false.
Proof.
  intros [->|(n & -> & _)]; [split; [now left|reflexivity]|]. split; [right; eauto|]. cbn. apply (has_char_all "@" is_digit); [reflexivity|apply dec_N_digits].
Qed.
Lemma clean_no ex s c : clean ex s -> In c (chars ex) -> has_char c s = false.
Proof. intros C I. apply no_char. intros J. now apply C in J as [_ J]. Qed.
Lemma host_chars h : printed_host h -> h <> "" /\ (forall c, In c (chars h) -> (32 < byte c <= 126)%N /\ c <> "/"%char /\ c <> "@"%char)
  /\ (has_char ":" h = false /\ starts_with "[" h = false \/ exists ip, h = "[" +:+ ip +:+ "]" /\ has_char "]" ip = false).
Proof.
  assert (Names : allowed h -> h <> "" -> h <> "" /\ (forall c, In c (chars h) -> (32 < byte c <= 126)%N /\ c <> "/"%char /\ c <> "@"%char)
    /\ (has_char ":" h = false /\ starts_with "[" h = false)).
  { intros A N. split; [exact N|]. split.
    - intros c I. apply A in I as [B X]. split; [|split; intros ->; apply X; cbn; tauto]. split; [|lia].
      destruct (N.eq_dec (byte c) 32) as [E|]; [|lia]. exfalso. apply X. left. symmetry. now apply byte_inj.
    - split; [apply (clean_no _ _ ":" A); cbn; tauto|]. destruct h as [|c r]; [congruence|]. rewrite (starts_one "["). apply Ascii.eqb_neq. intros <-.
      apply (A "["%char); [now left|cbn; tauto]. }
  intros [(l & t & -> & A & P)|[(n & A & P)|(N & A & _)]].
  - split; [discriminate|]. assert (W : web_ipv6 t = Some t) by (apply c115_ipv6_pf; eauto).
    pose proof (proj2 (proj1 ipv6_ok t t W)) as C. split.
    + intros c. rewrite !chars_app, !in_app_iff. intros [[<-|[]]|[I|[<-|[]]]]; [cbn; repeat split; (lia || discriminate)| |cbn; repeat split; (lia || discriminate)].
      apply C in I as [->|I]; [cbn; repeat split; (lia || discriminate)|]. split; [lia|]. split; intros ->; cbn in I; lia.
    + right. exists t. split; [reflexivity|]. apply no_char. intros I. apply C in I as [I|I]; [discriminate|cbn in I; lia].
  - destruct (quad_name no_idna n h P) as (_ & N & _ & _ & Al). destruct (Names Al N) as (X & Y & Z). auto.
  - destruct (Names A N) as (X & Y & Z). auto.
Qed.
Lemma underscored_chars h c : In c (chars (underscored h)) -> In c (chars h) \/ c = "_"%char.
Proof.
  unfold chars. induction h as [|d h IH]; [intros []|]. cbn [underscored list_ascii_of_string]. destruct (Ascii.eqb_spec d ".") as [->|]; intros [<-|I]; auto.
  - apply IH in I as [I|I]; [left; now right|auto].
  - left. now left.
  - apply IH in I as [I|I]; [left; now right|auto].
Qed.
Lemma url_parts idna t u : idna_ok idna -> web_parse (web_domain idna) web_ipv6 t = Some u -> special (u_scheme u) ->
  exists a user h p, u_auth u = Some a /\ a = user +:+ h +:+ p /\ userinfo user /\ port (u_scheme u) p /\ printed_host h /\ host_in a h /\ host_str u = Some h.
Proof.
  intros Ok W Sp. destruct (c115_urls_pf idna Ok t u W) as [_ H]. destruct (H Sp) as (a & user & h & p & A & E & U & P & Hh).
  destruct (host_chars h Hh) as (N & C & K). pose proof (user_at user U) as Ua. destruct (port_colon _ p P) as [Pc Pa].
  assert (At : has_char "@" (h +:+ p) = false).
  { rewrite has_char_app, Pa. rewrite orb_false_r. apply no_char. intros I. now apply C in I as (_ & _ & I). }
  assert (Hi : host_in a h).
  { split; [exact N|]. exists user, p. split; [exact E|]. split; [|split; [exact At|]].
    - destruct Ua as [->|Ua]; [left|right; exact Ua]. split; [reflexivity|]. now rewrite E.
    - destruct K as [[K1 K2]|K]; [left; auto|right; exact K]. }
  exists a, user, h, p. split; [exact A|]. split; [exact E|]. split; [exact U|]. split; [exact P|]. split; [exact Hh|]. split; [exact Hi|]. exact (host_of a h Hi u A).
Qed.
(** C115: the host a verifier started at a web URL is certified for is that of the URL, and the file its certificate is kept
    in lies in the directory of the cache: its name has no slash and is no dot name. *)
Lemma c115_start_pf :
  forall idna, idna_ok idna -> forall t u, web_parse (web_domain idna) web_ipv6 t = Some u -> special (u_scheme u) ->
    exists a h, u_auth u = Some a /\ host_in a h /\ printed_host h /\ host_str u = Some h
      /\ exists x, cache_file h = x +:+ ".json" /\ x <> "" /\ forall c, In c (chars x) -> (32 < byte c <= 126)%N /\ c <> "/"%char /\ c <> "."%char.
Proof.
  intros idna Ok t u W Sp. destruct (url_parts idna t u Ok W Sp) as (a & user & h & p & A & _ & _ & _ & Hh & Hi & Hs).
  destruct (host_chars h Hh) as (N & C & _).
  exists a, h. split; [exact A|]. split; [exact Hi|]. split; [exact Hh|]. split; [exact Hs|].
  exists (underscored h). split; [reflexivity|]. split; [destruct h; [congruence|discriminate]|]. intros c I.
  assert (D : c <> "."%char).
  { clear -I. intros ->. unfold chars in I. induction h as [|d h IH]; [destruct I|]. cbn [underscored list_ascii_of_string] in I.
    destruct (Ascii.eqb_spec d "."); destruct I as [I|I]; auto; discriminate. }
  apply underscored_chars in I as [I| ->]; [|repeat split; (cbn; lia) || discriminate]. apply C in I as (I & S & _). auto.
Qed.
Example c115_start_ex :
  map (fun s => option_map (fun u => option_map cache_file (host_str u)) (plain_web s)) ["https://V.Example:8443/x"; "http://0x7f000001"; "https://a_b%2eexample"; "https://[::1]/"; "https://../"]
  = [Some (Some "v_example.json"); Some (Some "127_0_0_1.json"); Some (Some "a_b_example.json"); Some (Some "[::1].json"); Some (Some "__.json")].
Proof. vm_compute. reflexivity. Qed.

Definition odd : string := """`{}".
Lemma odd_no c : In c (chars odd) -> byte c = 34%N \/ byte c = 96%N \/ byte c = 123%N \/ byte c = 125%N.
Proof. intros [<-|[<-|[<-|[<-|[]]]]]; vm_compute; auto. Qed.
Lemma part_chars t n c : part t n -> In c (chars t) -> c = "x"%char \/ c = "X"%char \/ exists d, digit c d.
Proof.
  intros [(h & [->| ->] & H)|[(o & -> & _ & H)|(_ & H & _)]].
  - intros [<-|[<-|I]]; [right; right; exists 0%N; left; cbn; lia|auto|]. apply (number_chars _ _ _ c H) in I as (d & D & _). eauto.
  - intros [<-|[<-|I]]; [right; right; exists 0%N; left; cbn; lia|auto|]. apply (number_chars _ _ _ c H) in I as (d & D & _). eauto.
  - intros [<-|I]; [right; right; exists 0%N; left; cbn; lia|]. apply (number_chars _ _ _ c H) in I as (d & D & _). eauto.
  - intros I. apply (number_chars _ _ _ c H) in I as (d & D & _). eauto.
Qed.
Lemma address4_chars s n c : address4 s n -> In c (chars s) -> ~ In c (chars odd).
Proof.
  intros (texts & before & z & E & F & _) I O. apply odd_no in O.
  assert (J : In c (chars (join "." texts)) -> False).
  { clear E I. revert F. generalize (before ++ [z]). intros ns F. induction F as [|t m texts ns P F IH]; [intros []|].
    assert (T : In c (chars t) -> False).
    { intros I. apply (part_chars t m c P) in I as [->|[->|(d & D)]]; [cbn in O; lia|cbn in O; lia|]. unfold digit in D. lia. }
    destruct texts as [|t' texts]; [exact T|]. rewrite join_cons, !chars_app, !in_app_iff. intros [I|[[<-|[]]|I]]; [exact (T I)|cbn in O; lia|exact (IH I)]. }
  destruct E as [->| ->]; [exact (J I)|]. rewrite chars_app, in_app_iff in I. destruct I as [I|[<-|[]]]; [exact (J I)|cbn in O; lia].
Qed.
Lemma user_plain user c : userinfo user -> In c (chars user) -> ~ In c (chars odd).
Proof.
  assert (T : forall x, user_text x -> In c (chars x) -> ~ In c (chars odd)).
  { intros x X I [<-|[<-|[<-|[<-|[]]]]]; apply X in I as [_ I]; apply I; cbn; tauto. }
  intros [->|[(w & -> & Tw & _)|(w & q & -> & Tw & Tq & _)]]; [intros []| |]; rewrite !chars_app, !in_app_iff.
  - intros [I|[<-|[]]]; [exact (T w Tw I)|]. intros O. apply odd_no in O. cbn in O. lia.
  - intros [I|[[<-|[]]|[I|[<-|[]]]]]; [exact (T w Tw I)| |exact (T q Tq I)|]; intros O; apply odd_no in O; cbn in O; lia.
Qed.
Lemma port_plain scheme p c : port scheme p -> In c (chars p) -> ~ In c (chars odd).
Proof.
  intros [->|(n & -> & _)]; [intros []|]. rewrite chars_app, in_app_iff. intros [[<-|[]]|I] O; apply odd_no in O; [cbn in O; lia|].
  destruct (dec_canonical n) as [H _]. apply (number_chars _ _ _ c H) in I as (d & D & _). unfold digit in D. lia.
Qed.
(** C115: what can be sent to: the HTTP client takes a web URL unless it is too long or the name of its host has one of four
    characters the URL standard allows and RFC 3986 does not; IP addresses are always taken. *)
Lemma c115_takes_pf :
  forall idna, idna_ok idna -> forall t u, web_parse (web_domain idna) web_ipv6 t = Some u -> special (u_scheme u) ->
    (web_uri (url_str u) = true <-> at_most 65534 u /\ forall h, host_str u = Some h -> forall c, In c (chars h) -> ~ In c (chars """`{}"))
    /\ forall h, host_str u = Some h -> (exists n, address4 h n) \/ (exists r, h = "[" +:+ r) -> web_uri (url_str u) = true <-> at_most 65534 u.
Proof.
  intros idna Ok t u W Sp. destruct (c115_hosts_pf idna Ok) as [H V].
  destruct (url_parts idna t u Ok W Sp) as (a & user & h & p & A & E & U & P & Hh & _ & Hs).
  assert (Pl : plain_host_name u <-> forall h, host_str u = Some h -> forall c, In c (chars h) -> ~ In c (chars odd)).
  { unfold plain_host_name. split.
    - intros X h' Hh' c I. assert (h' = h) by congruence. subst h'. apply (X a c A). rewrite E, !chars_app, !in_app_iff. auto.
    - intros X a' c Ha I. assert (a' = a) by congruence. subst a'. rewrite E, !chars_app, !in_app_iff in I. destruct I as [I|[I|I]].
      + exact (user_plain user c U I).
      + exact (X h Hs c I).
      + exact (port_plain _ p c P I). }
  pose proof (c113_takes_pf _ _ H V t u W Sp) as T. split; [now rewrite T, Pl|]. intros h' Hh' K. assert (h' = h) by congruence. subst h'.
  rewrite T. split; [now intros [L _]|]. intros L. split; [exact L|]. apply Pl. intros h' Hx c I. assert (h' = h) by congruence. subst h'. clear Hx.
  destruct K as [(n & N)|(r & ->)]; [exact (address4_chars h n c N I)|].
  destruct Hh as [(l & q & Eh & Aq & Pq)|[(n & N & _)|(_ & Al & _)]].
  - rewrite Eh in I. intros O. apply odd_no in O. rewrite !chars_app, !in_app_iff in I. destruct I as [[<-|[]]|[I|[<-|[]]]]; [cbn in O; lia| |cbn in O; lia].
    assert (Wq : web_ipv6 q = Some q) by (apply c115_ipv6_pf; eauto). apply (proj2 (proj1 ipv6_ok q q Wq)) in I as [->|I]; [cbn in O; lia|lia].
  - exact (address4_chars _ n c N I).
  - exfalso. apply (Al "["%char); [now left|cbn; tauto].
Qed.
Example c115_takes_ex :
  map (fun s => option_map (fun u => web_uri (url_str u)) (plain_web s)) ["https://v.example/"; "https://0x7f.1"; "https://[::1]:1/"; "https://a{b/"]
  = [Some true; Some true; Some true; Some false].
Proof. vm_compute. reflexivity. Qed.
