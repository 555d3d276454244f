From Coq Require Import Lia.
From Verif Require Import Base BaseFacts Utf8 Json JsonText Url Object Params Metadata Effects Request Verify Response Wallet
  SpecRequest SpecResponse PfRequest PfResponse SpecWallet PfResolve PfWallet SpecEncodings PfEncodings Reqwest SpecReqwest.
From Verif Require SpecExample PfExample ExWallet ExMatcher.

Lemma lower_char_iff : forall c d, lower_char c = lower_char d <-> c = d \/ capital_of c d \/ capital_of d c.
Proof.
  assert (L : forall c, (65 <= byte c <= 90)%N /\ byte (lower_char c) = (byte c + 32)%N \/ ~ (65 <= byte c <= 90)%N /\ lower_char c = c).
  { intros c. unfold lower_char. destruct (N.leb_spec 65 (byte c)), (N.leb_spec (byte c) 90); cbn [andb]; try (right; split; [lia|reflexivity]).
    left. split; [lia|]. apply byte_chr. lia. }
  intros c d. unfold capital_of. split.
  - intros E. destruct (L c) as [[C1 C2]|[C1 C2]], (L d) as [[D1 D2]|[D1 D2]]; rewrite ?E in *.
    + left. apply byte_inj. lia.
    + right. left. rewrite <- D2. lia.
    + right. right. rewrite C2 in D2. lia.
    + left. congruence.
  - intros [->|[[C B]|[C B]]]; [reflexivity| |].
    + destruct (L c) as [[C1 C2]|[C1 C2]]; [|tauto]. destruct (L d) as [[D1 D2]|[D1 D2]]; [lia|]. apply byte_inj. rewrite D2. lia.
    + destruct (L d) as [[C1 C2]|[C1 C2]]; [|tauto]. destruct (L c) as [[D1 D2]|[D1 D2]]; [lia|]. apply byte_inj. rewrite D2. lia.
Qed.
Lemma lower_iff a : forall b, lower_ascii a = lower_ascii b <-> same_name a b.
Proof.
  unfold same_name. induction a as [|c a IH]; intros [|d b]; cbn [lower_ascii list_ascii_of_string].
  - split; [constructor|reflexivity].
  - split; [discriminate|]. intros H. inversion H.
  - split; [discriminate|]. intros H. inversion H.
  - split.
    + intros H. injection H as H1 H2. constructor; [now apply lower_char_iff|now apply IH].
    + intros H. inversion H as [|? ? ? ? H1 H2]; subst. f_equal; [now apply lower_char_iff|now apply IH].
Qed.
Lemma about_iff k : about_body k <-> In (lower_ascii k) ["content-type"; "content-length"; "content-encoding"; "transfer-encoding"].
Proof.
  unfold about_body. split.
  - intros (n & I & S). apply lower_iff in S. rewrite S. cbn [In] in I |- *. repeat (destruct I as [<-|I]; [cbn; tauto|]). destruct I.
  - intros I. exists (lower_ascii k). split; [exact I|]. apply lower_iff. cbn [In] in I. repeat (destruct I as [<-|I]; [reflexivity|]). destruct I.
Qed.
Lemma referer_iff k : is_referer k <-> lower_ascii k = "referer".
Proof. unfold is_referer. rewrite <- lower_iff. reflexivity. Qed.
Lemma comes_iff u w : comes_from u w <-> w = referer_text u.
Proof.
  unfold comes_from, referer_text, target. cbn [u_scheme u_auth u_path u_opaque u_query]. destruct (u_auth u) as [s|].
  - assert (W : forall h, without "@" h <-> has_char "@" h = false) by (intros h; apply without_iff).
    split.
    + intros (a & -> & h & -> & N & C). apply W in N. do 3 f_equal. destruct C as [->|(user & ->)].
      * apply rsplit_once_none in N. now rewrite N.
      * destruct (rsplit_once "@" (user +:+ "@" +:+ h)) as [[x y]|] eqn:R.
        -- assert (R' : rsplit_once "@" (user +:+ "@" +:+ h) = Some (user, h)) by (apply rsplit_once_some; auto). congruence.
        -- assert (R' : rsplit_once "@" (user +:+ "@" +:+ h) = Some (user, h)) by (apply rsplit_once_some; auto). congruence.
    + intros ->. eexists. split; [reflexivity|]. eexists. split; [reflexivity|]. rewrite W. destruct (rsplit_once "@" s) as [[x y]|] eqn:R.
      * apply rsplit_once_some in R as [-> N]. split; [exact N|]. right. exists x. reflexivity.
      * apply rsplit_once_none in R. auto.
  - split; [intros (a & -> & ->); reflexivity|]. intros ->. eauto.
Qed.

Section Follow.
Variable join : url -> string -> option url.
Variable uri_ok : string -> bool.
Variable net : http_req -> res exchange.

Lemma statuses s : redirect_status s <-> follows_bare s = true \/ follows_same s = true.
Proof.
  unfold redirect_status, follows_bare, follows_same. cbn [In]. rewrite !orb_true_iff, !N.eqb_eq. intuition congruence.
Qed.
Lemma keeps_iff s : keeps_body s <-> follows_same s = true.
Proof. unfold keeps_body, follows_same. now rewrite orb_true_iff, !N.eqb_eq. Qed.
Lemma bare_not_same s : follows_bare s = true -> follows_same s = false.
Proof.
  unfold follows_bare, follows_same. rewrite !orb_true_iff, !N.eqb_eq, orb_false_iff, !N.eqb_neq. lia.
Qed.
Lemma web_iff u : web_url u = true <-> http_url u.
Proof. unfold web_url, http_url. now rewrite orb_true_iff, !String.eqb_eq. Qed.

Lemma next_url_iff u x v : next_url join uri_ok u x = Some v <-> sends_to join uri_ok u x v.
Proof.
  unfold next_url, sends_to. rewrite statuses, <- orb_true_iff.
  destruct (follows_bare (x_status x) || follows_same (x_status x))%bool; [|split; [discriminate|intros [[=] _]]].
  split.
  - intros H. split; [reflexivity|]. destruct (x_location x) as [l|]; [|discriminate]. exists l.
    destruct (join u l) as [v'|]; [|discriminate]. destruct (uri_ok (target v')) eqn:E; [|discriminate].
    injection H as ->. auto.
  - intros (_ & l & -> & -> & U). change (sent_to v) with (target v) in U. now rewrite U.
Qed.
Lemma next_url_none u x : next_url join uri_ok u x = None <-> ~ exists v, sends_to join uri_ok u x v.
Proof.
  split.
  - intros H (v & S). apply next_url_iff in S. congruence.
  - intros H. destruct (next_url join uri_ok u x) eqn:E; [|reflexivity]. destruct H. eexists. apply next_url_iff, E.
Qed.

Lemma drop_in k l a w : In (a, w) (drop_header k l) <-> In (a, w) l /\ lower_ascii a <> lower_ascii k.
Proof.
  unfold drop_header. rewrite filter_In. cbn [fst]. unfold same_header. now rewrite negb_true_iff, String.eqb_neq.
Qed.

Lemma next_resent u v s r : follows_bare s = true \/ follows_same s = true -> resent u r s v (next_request u v s r).
Proof.
  intros H. unfold resent. rewrite keeps_iff.
  set (hs := if follows_bare s
            then drop_header "transfer-encoding" (drop_header "content-encoding"
                   (drop_header "content-type" (drop_header "content-length" (rq_headers r))))
            else rq_headers r).
  assert (HS : forall k w, In (k, w) hs <-> In (k, w) (rq_headers r) /\ (follows_same s = true \/ ~ about_body k)).
  { intros k w. unfold hs. destruct (follows_bare s) eqn:B.
    - rewrite !drop_in. apply bare_not_same in B. rewrite B, about_iff. cbn [In].
      change (lower_ascii "content-length") with "content-length". change (lower_ascii "content-type") with "content-type".
      change (lower_ascii "content-encoding") with "content-encoding". change (lower_ascii "transfer-encoding") with "transfer-encoding".
      intuition congruence.
    - destruct H as [H|H]; [discriminate|]. rewrite H. tauto. }
  assert (RH : rq_headers (next_request u v s r) = match make_referer u v with Some t => put_header "referer" t hs | None => hs end).
  { unfold next_request. fold hs. destruct (follows_bare s); reflexivity. }
  split; [unfold next_request; destruct (follows_bare s); reflexivity|].
  split. { intros K. unfold next_request. destruct (follows_bare s) eqn:B; [apply bare_not_same in B; congruence|split; reflexivity]. }
  split. { intros K. destruct H as [B|B]; [|congruence]. unfold next_request. rewrite B. split; [reflexivity|]. intros M.
    cbn [rq_method]. destruct (String.eqb_spec (rq_method r) "HEAD"); [congruence|reflexivity]. }
  rewrite RH. unfold make_referer. rewrite andb_comm. split.
  - intros k w N. rewrite keeps_iff, <- HS. destruct (String.eqb (u_scheme u) "https" && String.eqb (u_scheme v) "http")%bool; [reflexivity|].
    unfold put_header. rewrite in_app_iff, drop_in. change (lower_ascii "referer") with "referer". rewrite referer_iff in N. cbn [In].
    split; [|tauto]. intros [[I _]|[E|[]]]; [exact I|]. injection E as <- _. destruct N. reflexivity.
  - intros k w R. destruct (String.eqb (u_scheme u) "https" && String.eqb (u_scheme v) "http")%bool.
    + rewrite HS. split; [tauto|]. intros I. split; [exact I|]. right. rewrite about_iff. apply referer_iff in R. rewrite R. cbn [In].
      intros C. repeat (destruct C as [C|C]; [discriminate|]). exact C.
    + unfold put_header. rewrite in_app_iff, drop_in. change (lower_ascii "referer") with "referer". rewrite comes_iff. apply referer_iff in R. cbn [In].
      split; [|intros [-> ->]; tauto]. intros [[_ N]|[E|[]]]; [contradiction|]. injection E as <- <-. auto.
Qed.

Lemma follow_chain n : forall u r,
  exists w z, chain join uri_ok net u r (fst (follow join uri_ok net n u r)) w z
  /\ (length (fst (follow join uri_ok net n u r)) <= S n)%nat
  /\ (forall rs, snd (follow join uri_ok net n u r) = Ok rs <->
        exists x, net z = Ok x /\ rs_status rs = x_status x /\ x_body x = Ok (rs_body rs) /\ ~ exists v, sends_to join uri_ok w x v)
  /\ (forall x v, net z = Ok x -> sends_to join uri_ok w x v -> http_url v ->
        length (fst (follow join uri_ok net n u r)) = S n).
Proof.
  induction n as [|n IH]; intros u r; cbn [follow]; unfold mbind, emit, lift, ret; cbn [fst snd].
  - exists u, r. destruct (net r) as [x|e] eqn:N; cbn [fst snd app].
    + destruct (next_url join uri_ok u x) as [v|] eqn:V; cbn [fst snd app].
      * split; [constructor|]. split; [cbn; lia|]. split; [|reflexivity]. intros rs. split; [discriminate|].
        intros (x' & E & _ & _ & C). injection E as <-. destruct C. exists v. now apply next_url_iff.
      * destruct (x_body x) as [b|e] eqn:B; cbn [fst snd app]; (split; [constructor|]); (split; [cbn; lia|]).
        -- split; [|reflexivity]. intros rs. split.
           ++ intros [= <-]. exists x. cbn [rs_status rs_body]. repeat split; auto. now apply next_url_none.
           ++ intros (x' & E & S1 & S2 & _). injection E as <-. destruct rs as [st bd]. cbn [rs_status rs_body] in *. congruence.
        -- split; [|reflexivity]. intros rs. split; [discriminate|]. intros (x' & E & _ & S2 & _). congruence.
    + split; [constructor|]. split; [cbn; lia|]. split; [|reflexivity]. intros rs. split; [discriminate|]. intros (x' & E & _). discriminate.
  - destruct (net r) as [x|e] eqn:N; cbn [fst snd app].
    + destruct (next_url join uri_ok u x) as [v|] eqn:V; cbn [fst snd app].
      * destruct (web_url v) eqn:W; cbn [of_bool fst snd app].
        -- destruct (IH v (next_request u v (x_status x) r)) as (w & z & C & L & R & F). exists w, z.
           assert (S : sends_to join uri_ok u x v) by now apply next_url_iff.
           split. { eapply chain_hop; eauto; [now apply web_iff|]. apply next_resent. now apply statuses, (proj1 S). }
           split; [cbn [length]; lia|]. split; [exact R|]. intros x' v' E S' H. cbn [length]. f_equal. eapply F; eauto.
        -- exists u, r. split; [constructor|]. split; [cbn; lia|]. split.
           ++ intros rs. split; [discriminate|]. intros (x' & E & _ & _ & C). destruct C. exists v. apply next_url_iff. congruence.
           ++ intros x' v' E S' H. rewrite N in E. injection E as <-. apply next_url_iff in S'. apply web_iff in H. congruence.
      * destruct (x_body x) as [b|e] eqn:B; cbn [fst snd app]; exists u, r; (split; [constructor|]); (split; [cbn; lia|]); split.
        -- intros rs. split.
           ++ intros [= <-]. exists x. cbn [rs_status rs_body]. repeat split; auto. now apply next_url_none.
           ++ intros (x' & E & S1 & S2 & _). rewrite N in E. injection E as <-. destruct rs as [st bd]. cbn [rs_status rs_body] in *. congruence.
        -- intros x' v E S. rewrite N in E. injection E as <-. apply next_url_iff in S. congruence.
        -- intros rs. split; [discriminate|]. intros (x' & E & _ & S2 & _). congruence.
        -- intros x' v E S. rewrite N in E. injection E as <-. apply next_url_iff in S. congruence.
    + exists u, r. split; [constructor|]. split; [cbn; lia|]. split; [|congruence]. intros rs. split; [discriminate|].
      intros (x' & E & _). congruence.
Qed.
End Follow.

(** C111: the library's own client sends nothing for a URI that is no http(s) URL.  Otherwise it sends the given request
    to that URL and then follows redirects: each later request is made because the answer to the one before it names its
    URL, they are at most one more than the limit, the answer returned is the answer to the last, is no redirect, and it
    stops early only for that, for a failure or for a URL that is not http(s). *)
Lemma c111_execute_pf :
  forall (url_parse : string -> option url) (join : url -> string -> option url) (uri_ok : string -> bool)
    (net : http_req -> res exchange) (limit : nat) (r : http_req),
    let run := execute url_parse join uri_ok net limit r in
    ((forall u, url_parse (rq_uri r) = Some u -> ~ http_url u) -> fst run = [] /\ exists e, snd run = Err e)
    /\ forall u, url_parse (rq_uri r) = Some u -> http_url u ->
       exists w z, chain join uri_ok net u (at_uri (sent_to u) r) (fst run) w z
       /\ (length (fst run) <= S limit)%nat
       /\ (forall rs, snd run = Ok rs <->
             exists x, net z = Ok x /\ rs_status rs = x_status x /\ x_body x = Ok (rs_body rs)
               /\ ~ exists v, sends_to join uri_ok w x v)
       /\ (forall x v, net z = Ok x -> sends_to join uri_ok w x v -> http_url v -> length (fst run) = S limit).
Proof.
  intros up join uok net limit r. cbv zeta. unfold execute. rewrite lift_bind. split.
  - intros H. destruct (up (rq_uri r)) as [u|]; cbn [ok_or]; [|cbn; eauto].
    rewrite lift_bind. destruct (web_url u) eqn:W; [apply web_iff in W; destruct (H u eq_refl W)|cbn; eauto].
  - intros u E W. rewrite E. cbn [ok_or]. rewrite lift_bind. apply web_iff in W. rewrite W. cbn [of_bool].
    apply (follow_chain join uok net limit u (at_uri (sent_to u) r)).
Qed.

Lemma referer_not_body k : is_referer k -> ~ about_body k.
Proof.
  intros R. apply referer_iff in R. rewrite about_iff, R. cbn [In]. intros C. repeat (destruct C as [C|C]; [discriminate|]). exact C.
Qed.
Lemma keeps_dec s : keeps_body s \/ ~ keeps_body s.
Proof. unfold keeps_body. destruct (N.eq_dec s 307), (N.eq_dec s 308); tauto. Qed.

Lemma resent_bare u q s v q' : rq_method q <> "HEAD" -> ~ keeps_body s -> resent u q s v q' -> bare_get q'.
Proof.
  intros M K (_ & _ & B & H & R). destruct (B K) as [B1 B2]. split; [now apply B2|]. split; [exact B1|]. intros k w I.
  destruct (string_dec (lower_ascii k) "referer") as [E|E]; rewrite <- referer_iff in E; [now apply referer_not_body|].
  apply (H k w E) in I as [_ [I|I]]; [contradiction|exact I].
Qed.
Lemma resent_bare_again u q s v q' : bare_get q -> resent u q s v q' -> bare_get q'.
Proof.
  intros (M & E & A) S. destruct (keeps_dec s) as [K|K].
  - destruct S as (_ & B & _ & H & R). destruct (B K) as [B1 B2]. split; [congruence|]. split; [congruence|]. intros k w I.
    destruct (string_dec (lower_ascii k) "referer") as [F|F]; rewrite <- referer_iff in F; [now apply referer_not_body|].
    apply (H k w F) in I as [I _]. eauto.
  - eapply resent_bare; eauto. congruence.
Qed.

Lemma chain_bare join uok net u q l w z : chain join uok net u q l w z -> bare_get q -> forall p, In p l -> bare_get p.
Proof.
  induction 1 as [u q|u q x v q' l w z N S W R C IH]; intros B p.
  - intros [<-|[]]. exact B.
  - intros [<-|I]; [exact B|]. apply IH; [|exact I]. eapply resent_bare_again; eauto.
Qed.

Lemma chain_body join uok net u q l w z : chain join uok net u q l w z -> rq_method q <> "HEAD" ->
  forall pre p post, l = pre ++ p :: post ->
  ((forall o, In o pre -> hands_on net o) /\ rq_method p = rq_method q /\ rq_body p = rq_body q)
  \/ ((exists o x, In o pre /\ net o = Ok x /\ plain_redirect (x_status x)) /\ bare_get p).
Proof.
  induction 1 as [u q|u q x v q' l w z N S W R C IH]; intros M pre p post E.
  - left. destruct pre as [|o pre]; [|destruct pre; discriminate]. injection E as <- _. split; [intros o []|auto].
  - destruct pre as [|o pre]; [injection E as <- _; left; split; [intros o []|auto]|].
    injection E as <- E. destruct (keeps_dec (x_status x)) as [K|K].
    + destruct (proj1 (proj2 R) K) as [R1 R2]. destruct (IH ltac:(congruence) pre p post E) as [(A & B1 & B2)|((o & y & I & Y) & B)].
      * left. split; [|split; congruence]. intros o [<-|I]; [exists x; auto|auto].
      * right. split; [|exact B]. exists o, y. split; [now right|exact Y].
    + right. split. { exists q, x. split; [now left|]. split; [exact N|]. split; [exact (proj1 S)|exact K]. }
      eapply chain_bare; [exact C| |rewrite E; apply in_or_app; right; now left].
      eapply resent_bare; eauto.
Qed.

(** C111: the body and the method of a request reach other URLs only by way of 307 and 308 answers of servers that got
    them; after any other redirect only GETs without a body are sent. *)
Lemma c111_body_pf :
  forall (url_parse : string -> option url) (join : url -> string -> option url) (uri_ok : string -> bool)
    (net : http_req -> res exchange) (limit : nat) (r : http_req) (before : list http_req) (q : http_req) (after : list http_req),
    rq_method r <> "HEAD" ->
    fst (execute url_parse join uri_ok net limit r) = before ++ q :: after ->
    ((forall p, In p before -> hands_on net p) /\ rq_method q = rq_method r /\ rq_body q = rq_body r)
    \/ ((exists p x, In p before /\ net p = Ok x /\ plain_redirect (x_status x)) /\ bare_get q).
Proof.
  intros up join uok net limit r pre q post M E.
  destruct (c111_execute_pf up join uok net limit r) as [Z C].
  destruct (up (rq_uri r)) as [u|] eqn:U.
  - destruct (web_url u) eqn:W.
    + apply web_iff in W. destruct (C u eq_refl W) as (w & z & H & _). apply (chain_body _ _ _ _ _ _ _ _ H M pre q post E).
    + destruct Z as [Z _]. { intros u' [= <-] H. apply web_iff in H. congruence. } rewrite Z in E. destruct pre; discriminate.
  - destruct Z as [Z _]; [discriminate|]. rewrite Z in E. destruct pre; discriminate.
Qed.

Lemma wire_http up join uok net limit l : wire up join uok net limit l = flat_map (fun r => fst (execute up join uok net limit r)) (http_events l).
Proof.
  induction l as [|e l IH]; [reflexivity|]. destruct e.
  - change (wire up join uok net limit (EHttp r :: l)) with (fst (execute up join uok net limit r) ++ wire up join uok net limit l).
    change (http_events (EHttp r :: l)) with (r :: http_events l). cbn [flat_map]. now rewrite IH.
  - exact IH.
Qed.
Lemma execute_length up join uok net limit r : (length (fst (execute up join uok net limit r)) <= S limit)%nat.
Proof.
  destruct (c111_execute_pf up join uok net limit r) as [Z C].
  destruct (up (rq_uri r)) as [u|] eqn:U.
  - destruct (web_url u) eqn:W.
    + apply web_iff in W. destruct (C u eq_refl W) as (w & z & _ & H & _). exact H.
    + destruct Z as [-> _]; [|cbn; lia]. intros u' [= <-] H. apply web_iff in H. congruence.
  - destruct Z as [-> _]; [discriminate|cbn; lia].
Qed.
Lemma execute_first up join uok net limit r q l : fst (execute up join uok net limit r) = q :: l ->
  exists u, up (rq_uri r) = Some u /\ http_url u /\ q = at_uri (sent_to u) r.
Proof.
  intros E. destruct (c111_execute_pf up join uok net limit r) as [Z C].
  destruct (up (rq_uri r)) as [u|] eqn:U.
  - destruct (web_url u) eqn:W.
    + apply web_iff in W. destruct (C u eq_refl W) as (w & z & H & _). exists u. split; [reflexivity|]. split; [exact W|].
      rewrite E in H. now inversion H.
    + destruct Z as [Z _]. { intros u' [= <-] H. apply web_iff in H. congruence. } congruence.
  - destruct Z as [Z _]; [discriminate|]. congruence.
Qed.

(** C111: a wallet with the library's own client that submits a response sends it to the URL of the response_uri first,
    and to other URLs only as those who got it hand it on with 307 or 308; every other request is a GET without body,
    and all requests together are at most one more than the redirect limit. *)
Lemma c111_submit_pf :
  forall (url_parse : string -> option url) (join : url -> string -> option url) (uri_ok : string -> bool)
    (net : http_req -> res exchange) (limit : nat) (o : obj) (a : aro) (resp : auth_response),
    aro_of_obj url_parse o = Ok a ->
    let sent := wire url_parse join uri_ok net limit
                  (fst (submit_response url_parse uri_ok (reqwest_client url_parse join uri_ok net limit) a resp)) in
    (length sent <= S limit)%nat
    /\ (forall q l, sent = q :: l ->
          exists s u u' body, text_at "response_uri" o s /\ url_parse s = Some u /\ url_parse (url_str u) = Some u' /\ http_url u'
            /\ q = form_post (sent_to u') body /\ (sendable resp -> from_form body = Ok resp))
    /\ (forall before q after, sent = before ++ q :: after ->
          ((forall p, In p before -> hands_on net p) /\ rq_method q = "POST" /\ (sendable resp -> from_form (rq_body q) = Ok resp))
          \/ ((exists p x, In p before /\ net p = Ok x /\ plain_redirect (x_status x)) /\ bare_get q)).
Proof.
  intros up join uok net limit o a resp A. cbv zeta.
  set (http := reqwest_client up join uok net limit).
  destruct (c45_traffic_pf up uok http a resp) as [T1 T2].
  assert (D : fst (submit_response up uok http a resp) = [] \/
     exists body, fst (submit_response up uok http a resp) = [EHttp (form_post (url_str (ro_return a)) body)]
       /\ (sendable resp -> from_form body = Ok resp)).
  { assert (K : kind_matches (ro_mode a) resp \/ ~ kind_matches (ro_mode a) resp) by (destruct (ro_mode a), resp; cbn; tauto).
    destruct K as [K|K]; [|left; auto]. destruct (uok (url_str (ro_return a))) eqn:E; [right; now apply T1|left; auto]. }
  destruct D as [D|(body & D & F)].
  { rewrite D. cbn [wire flat_map]. split; [cbn; lia|]. split; [discriminate|]. intros [|? ?]; discriminate. }
  pose proof (c45_response_uri_pf up uok http o a resp (EHttp (form_post (url_str (ro_return a)) body)) A) as R.
  rewrite D in R |- *. specialize (R (or_introl eq_refl)). destruct R as (s & u & b & R1 & R2 & R3).
  rewrite wire_http. change (http_events [EHttp (form_post (url_str (ro_return a)) body)]) with [form_post (url_str (ro_return a)) body].
  cbn [flat_map]. rewrite app_nil_r. split; [apply execute_length|]. split.
  - intros q l E. apply execute_first in E as (u' & U & W & ->). exists s, u, u', body.
    injection R3 as R3 _. split; [exact R1|]. split; [exact R2|]. split; [rewrite <- R3; exact U|]. split; [exact W|]. split; [reflexivity|exact F].
  - intros pre q post E. apply c111_body_pf in E; [|discriminate]. destruct E as [(H & M & B)|E]; [left|right; exact E].
    split; [exact H|]. split; [exact M|]. rewrite B. exact F.
Qed.

Lemma execute_answer up join uok net limit r rs : snd (execute up join uok net limit r) = Ok rs ->
  exists l q x, fst (execute up join uok net limit r) = l ++ [q] /\ net q = Ok x /\ rs_status rs = x_status x /\ x_body x = Ok (rs_body rs).
Proof.
  intros E. destruct (c111_execute_pf up join uok net limit r) as [Z C].
  destruct (up (rq_uri r)) as [u|] eqn:U.
  - destruct (web_url u) eqn:W.
    + apply web_iff in W. destruct (C u eq_refl W) as (w & z & H & _ & R & _). apply R in E as (x & E1 & E2 & E3 & _).
      assert (L : exists l, fst (execute up join uok net limit r) = l ++ [z]).
      { clear - H. induction H as [u0 q|u0 q x v q' l w z _ _ _ _ _ (l' & ->)]; [now exists []|exists (q :: l'); reflexivity]. }
      destruct L as (l & L). exists l, z, x. auto.
    + destruct Z as [_ (e & Z)]. { intros u' [= <-] H. apply web_iff in H. congruence. } congruence.
  - destruct Z as [_ (e & Z)]; [discriminate|]. congruence.
Qed.

(** C111: validating a request with the library's own client sends only GETs without a body, at most one more than the
    redirect limit, the first to the request_uri, and none unless the request is by reference; a request object got by
    reference is the body of a 2xx answer to the last of them. *)
Lemma c111_validate_pf :
  forall (url_parse : string -> option url) (ssi_header : obj -> option bool) (uri_ok : string -> bool)
    (join : url -> string -> option url) (net : http_req -> res exchange) (limit : nat) (w : wallet) (r : auth_request),
    w_http w = reqwest_client url_parse join uri_ok net limit ->
    let sent := wire url_parse join uri_ok net limit (fst (validate url_parse ssi_header uri_ok w r)) in
    (length sent <= S limit)%nat
    /\ (forall q, In q sent -> bare_get q)
    /\ (forall q l, sent = q :: l -> exists u u', ar_indirection r = ByReference u
          /\ url_parse (url_str u) = Some u' /\ http_url u' /\ rq_uri q = sent_to u' /\ rq_headers q = [("Prefer", "OID4VP-1.0.0")])
    /\ (forall u a jwt, ar_indirection r = ByReference u ->
          snd (resolve_request url_parse ssi_header uri_ok (w_http w) r) = Ok (a, Some jwt) ->
          exists l q x, sent = l ++ [q] /\ net q = Ok x /\ (200 <= x_status x < 300)%N /\ x_body x = Ok jwt).
Proof.
  intros up ssi uok join net limit w r W. cbv zeta. rewrite wire_http.
  destruct (c13_traffic_pf up ssi uok w r) as [T _]. cbv zeta in T. rewrite T.
  destruct (ar_indirection r) as [jw|u|ob] eqn:I;
    try (cbn [flat_map]; split; [cbn; lia|]; split; [intros q []|]; split; [discriminate|discriminate]).
  destruct (uok (url_str u)) eqn:K; cbn [flat_map].
  - rewrite app_nil_r. set (g := mk_req "GET" (url_str u) [("Prefer", "OID4VP-1.0.0")] "").
    split; [apply execute_length|]. split; [|split].
    + assert (G : forall s, bare_get (at_uri s g)).
      { intros s. split; [reflexivity|]. split; [reflexivity|]. intros k v [E|[]]. injection E as <- _. rewrite about_iff.
        change (lower_ascii "Prefer") with "prefer". cbn [In]. intros C. repeat (destruct C as [C|C]; [discriminate|]). exact C. }
      destruct (c111_execute_pf up join uok net limit g) as [Z C]. destruct (up (rq_uri g)) as [u'|] eqn:U.
      * destruct (web_url u') eqn:V.
        -- apply web_iff in V. destruct (C u' eq_refl V) as (x & z & H & _). intros q. eapply chain_bare; [exact H|apply G].
        -- destruct Z as [Z _]. { intros v [= <-] H. apply web_iff in H. congruence. } rewrite Z. intros q [].
      * destruct Z as [Z _]; [discriminate|]. rewrite Z. intros q [].
    + intros q l E. apply execute_first in E as (u' & U & V & ->). exists u, u'. repeat split; auto.
    + intros u' a jwt [= <-] R. rewrite (resolve_reference _ _ _ _ _ _ I) in R. rewrite K, W in R. cbn [snd] in R.
      unfold reqwest_client in R. destruct (snd (execute up join uok net limit (mk_req "GET" (url_str u) [("Prefer", "OID4VP-1.0.0")] ""))) as [rs|e] eqn:X.
      2:{ change (get_request u) with g in R. fold g in X. rewrite X in R. discriminate. }
      change (get_request u) with g in R. fold g in X. rewrite X in R.
      destruct (execute_answer _ _ _ _ _ _ _ X) as (l & q & x & L & N & S & B). exists l, q, x. split; [exact L|]. split; [exact N|].
      cbn [rbind] in R. destruct (utf8_valid (rs_body rs)); [|discriminate]. cbn [of_bool rbind] in R.
      destruct (is_success (rs_status rs)) eqn:Y; [|discriminate]. cbn [of_bool rbind] in R.
      destruct (validate_typ _ _); [|discriminate]. cbn [rbind] in R. destruct (decode_aro _ _ _); [|discriminate]. cbn [rbind] in R.
      injection R as _ <-. rewrite S in Y. unfold is_success in Y. apply andb_true_iff in Y as [Y1 Y2].
      apply N.leb_le in Y1. apply N.ltb_lt in Y2. auto.
  - split; [cbn; lia|]. split; [intros q []|]. split; [discriminate|]. intros u' a jwt [= <-] R.
    rewrite (resolve_reference _ _ _ _ _ _ I), K in R. discriminate.
Qed.

(* ------------------------------------------------------------ a network to look at *)
(** Absolute URLs only, and absolute paths on the same server. *)
Definition toy_join (u : url) (l : string) : option url :=
  if starts_with "/" l then Some (mk_url (u_scheme u) (u_auth u) l false None None) else simple_parse l.
(** "/old" redirects with the given status, "/loop" to itself, and everything else answers what it got. *)
Definition toy_net (s : N) (to : string) : http_req -> res exchange :=
  fun q => if String.eqb (rq_uri q) "https://v.example/resp" then Ok (mk_exchange s (Some to) (Ok "moved"))
           else Ok (mk_exchange 200 None (Ok EmptyString)).
Definition loop_net : http_req -> res exchange := fun _ => Ok (mk_exchange 302 (Some "/again") (Ok EmptyString)).
Definition toy_execute (net : http_req -> res exchange) : http_req -> M http_req http_resp :=
  execute simple_parse toy_join (fun _ => true) net 10.
Definition toy_post : http_req := form_post "https://v.example/resp" "vp_token=%7B%7D".

Example c111_execute_ex :
  toy_execute (toy_net 303 "/done") toy_post
    = ([toy_post; mk_req "GET" "https://v.example/done" [("Prefer", "OID4VP-1.0.0"); ("referer", "https://v.example/resp")] ""],
       Ok (mk_resp 200 ""))
  /\ (length (fst (toy_execute loop_net toy_post)) = 11)%nat /\ snd (toy_execute loop_net toy_post) = Err "too many redirects"
  /\ toy_execute (toy_net 302 "ftp://v.example/x") toy_post = ([toy_post], Err "URL scheme is not allowed")
  /\ toy_execute (toy_net 200 "/done") toy_post = ([toy_post], Ok (mk_resp 200 "moved"))
  /\ fst (toy_execute loop_net (form_post "openid4vp://x" "a=b")) = [].
Proof. repeat split; vm_compute; reflexivity. Qed.
Example c111_body_ex :
  map (fun q => (rq_method q, rq_body q)) (fst (toy_execute (toy_net 308 "https://o.example/") toy_post))
    = [("POST", "vp_token=%7B%7D"); ("POST", "vp_token=%7B%7D")]
  /\ map (fun q => (rq_method q, rq_body q)) (fst (toy_execute (toy_net 301 "https://o.example/") toy_post))
    = [("POST", "vp_token=%7B%7D"); ("GET", "")].
Proof. split; vm_compute; reflexivity. Qed.
Definition toy_submit (net : http_req -> res exchange) (a : aro) : M wevent (option url) :=
  submit_response simple_parse (fun _ => true) (reqwest_client simple_parse toy_join (fun _ => true) net 10) a (Unencoded (mk_unencoded [] None)).
Definition toy_sent (net : http_req -> res exchange) (a : aro) : list http_req :=
  wire simple_parse toy_join (fun _ => true) net 10 (fst (toy_submit net a)).
Example c111_submit_ex :
  exists a, toy_aro_mode "direct_post" = Some a
  /\ map (fun q => (rq_method q, rq_uri q, rq_body q)) (toy_sent (toy_net 303 "/thanks") a)
     = [("POST", "https://v.example/resp", "vp_token=%7B%7D"); ("GET", "https://v.example/thanks", "")]
  /\ snd (toy_submit (toy_net 303 "/thanks") a) = Ok None.
Proof. eexists. split; [reflexivity|]. split; vm_compute; reflexivity. Qed.
(** A server that moved the request object. *)
Definition moved_net (jwt : string) : http_req -> res exchange :=
  fun q => if String.eqb (rq_uri q) "https://v.example/req" then Ok (mk_exchange 301 (Some "http://elsewhere.example/r") (Ok EmptyString))
           else Ok (mk_exchange 200 None (Ok jwt)).
Definition moved_jwt : string := jwt_of typ_ok sample_request.
Definition moved_wallet : wallet := lax_wallet ["redirect_uri"] (reqwest_client simple_parse toy_join (fun _ => true) (moved_net moved_jwt) 10).
Example c111_validate_ex :
  let r := mk_ar (Some "redirect_uri:https://v.example/resp") (ByReference sample_uri) in
  (exists a, snd (resolve_request simple_parse any_header (fun _ => true) (w_http moved_wallet) r) = Ok (a, Some moved_jwt))
  /\ map rq_uri (wire simple_parse toy_join (fun _ => true) (moved_net moved_jwt) 10
       (fst (validate simple_parse any_header (fun _ => true) moved_wallet r)))
     = ["https://v.example/req"; "http://elsewhere.example/r"].
Proof. split; [eexists|]; vm_compute; reflexivity. Qed.

(** C111: the response does leave the response_uri: a server there that answers 307 has the wallet repeat the POST, VP
    token included, to any host, in the clear, and the submission succeeds. *)
Lemma c111_elsewhere_refuted_pf :
  exists (join : url -> string -> option url) (net : http_req -> res exchange) (o : obj) (a : aro) (resp : auth_response) (q : http_req),
    let run := submit_response simple_parse (fun _ => true) (reqwest_client simple_parse join (fun _ => true) net 10) a resp in
    aro_of_obj simple_parse o = Ok a /\ text_at "response_uri" o "https://v.example/resp" /\ snd run = Ok None
    /\ In q (wire simple_parse join (fun _ => true) net 10 (fst run))
    /\ rq_method q = "POST" /\ rq_uri q = "http://elsewhere.example/take" /\ from_form (rq_body q) = Ok resp.
Proof.
  exists toy_join, (toy_net 307 "http://elsewhere.example/take"), (obj_insert "response_mode" (JStr "direct_post") sample_request).
  destruct (aro_of_obj simple_parse (obj_insert "response_mode" (JStr "direct_post") sample_request)) as [a|] eqn:A; [|vm_compute in A; discriminate].
  exists a, (Unencoded (mk_unencoded [] None)), (form_post "http://elsewhere.example/take" "vp_token=%7B%7D").
  cbv zeta. split; [reflexivity|]. vm_compute in A. injection A as <-. split; [vm_compute; reflexivity|]. split; [vm_compute; reflexivity|].
  split; [|split; [reflexivity|split; [reflexivity|vm_compute; reflexivity]]]. vm_compute. right. left. reflexivity.
Qed.

(** C111: whatever the servers it talks to do, the example wallet answers an authorization request after at most three
    times the redirect limit and three requests, those with a body being POSTs of one and the same body, as handed on. *)
Lemma c111_example_pf :
  forall (url_parse : string -> option url) (ssi_header : obj -> option bool) (uri_ok : string -> bool)
    (jwk_ok : obj -> bool) (jwe_encrypt : obj -> obj -> obj -> res string) (lower sign : string -> string) (now : Z)
    (join : url -> string -> option url) (net : http_req -> res exchange) (limit : nat)
    (endpoint : url) (store : list ExMatcher.credential) (auto_consent : bool) (p : ExWallet.params),
    let run := ExWallet.authorize url_parse ssi_header uri_ok jwk_ok jwe_encrypt lower sign now
                 (reqwest_client url_parse join uri_ok net limit) endpoint store auto_consent p in
    let sent := wire url_parse join uri_ok net limit (fst run) in
    (length sent <= 3 * S limit)%nat
    /\ exists body, forall q, In q sent -> bare_get q \/ (rq_method q = "POST" /\ rq_body q = body).
Proof.
  intros up ssi uok jok enc lower sign now join net limit ep store consent p. cbv zeta.
  set (http := reqwest_client up join uok net limit).
  assert (E : exists r body l, http_events (fst (ExWallet.authorize up ssi uok jok enc lower sign now http ep store consent p)) = l
    /\ (length l <= 3)%nat
    /\ forall q, In q l -> q = ExWallet.plain_post r body \/ (rq_method q = "GET" /\ rq_body q = "" /\ (rq_headers q = [] \/ rq_headers q = base_headers))).
  { unfold ExWallet.authorize. rewrite lift_bind.
    assert (Z : exists r body l, [] = l /\ (length l <= 3)%nat
       /\ forall q, In q l -> q = ExWallet.plain_post r body \/ (rq_method q = "GET" /\ rq_body q = "" /\ (rq_headers q = [] \/ rq_headers q = base_headers))).
    { exists ep, "", []. split; [reflexivity|]. split; [cbn; lia|]. intros q []. }
    destruct (from_url up (ExWallet.build_request_url ep p) ep) as [ar|e]; [|exact Z].
    rewrite PfExample.mbind_fst, http_app, resolve_http.
    assert (G : (length (get_events uok ar) <= 1)%nat /\ forall q, In q (get_events uok ar) -> rq_method q = "GET" /\ rq_body q = "" /\ (rq_headers q = [] \/ rq_headers q = base_headers)).
    { unfold get_events. destruct (ar_indirection ar); try (split; [cbn; lia|intros q []]).
      destruct (uok (url_str request_uri)); [|split; [cbn; lia|intros q []]]. split; [cbn; lia|]. intros q [<-|[]]. split; [reflexivity|]. split; [reflexivity|]. now right. }
    destruct G as [G1 G2].
    assert (Y : exists r body l, get_events uok ar ++ [] = l /\ (length l <= 3)%nat
       /\ forall q, In q l -> q = ExWallet.plain_post r body \/ (rq_method q = "GET" /\ rq_body q = "" /\ (rq_headers q = [] \/ rq_headers q = base_headers))).
    { exists ep, "", (get_events uok ar ++ []). split; [reflexivity|]. rewrite app_nil_r. split; [lia|]. intros q I. right. auto. }
    destruct (snd (resolve_request up ssi uok http ar)) as [[a jwt]|e]; [|exact Y].
    rewrite lift_bind. destruct (match aro_dcql a with Some r => _ | None => _ end) as [q|e]; [|exact Y].
    rewrite lift_bind. destruct (ExWallet.process_request lower store consent a) as [sel|e]; [|exact Y].
    rewrite lift_bind. destruct (ExWallet.redirect_uri_bound a); [|exact Y]. cbn [of_bool].
    assert (D : forall u body, exists l, http_events (fst (ExWallet.deliver up http u body)) = l /\ (length l <= 2)%nat
       /\ forall q, In q l -> q = ExWallet.plain_post u body \/ (rq_method q = "GET" /\ rq_body q = "" /\ (rq_headers q = [] \/ rq_headers q = base_headers))).
    { intros u body. eexists. split; [reflexivity|]. unfold ExWallet.deliver, send. rewrite !PfExample.mbind_fst. cbn [fst snd emit lift app mbind].
      destruct (http (ExWallet.plain_post u body)) as [rs|e]; [|split; [cbn; lia|intros q' [<-|[]]; now left]].
      cbn [fst snd]. rewrite lift_bind. destruct (of_bool _ _); [|split; [cbn; lia|intros q' [<-|[]]; now left]].
      destruct (match json_of_text _ with Some (JObj m) => _ | _ => None end) as [x|]; [|split; [cbn; lia|intros q' [<-|[]]; now left]].
      destruct (up x); [|split; [cbn; lia|intros q' [<-|[]]; now left]]. split; [cbn; lia|].
      intros q' [<-|[<-|[]]]; [now left|right]. repeat split. now left. }
    destruct (ro_mode a); try exact Y.
    - destruct (D (ro_return a) (unencoded_form (mk_unencoded (ExWallet.build_vp_token sign now sel (ro_nonce a) (match ro_client_id a with Some c => c | None => "unknown-verifier" end))
          match aro_state a with Some (Ok s) => Some s | _ => ExWallet.pa_state p end))) as (l & L & L1 & L2).
      cbn [fst snd]. rewrite L. eexists. eexists. exists (get_events uok ar ++ l). split; [reflexivity|]. rewrite app_length. split; [lia|].
      intros q' I. apply in_app_or in I as [I|I]; [right; auto|apply L2, I].
    - rewrite lift_bind. destruct (ExWallet.encrypted_answer _ _ _ _ _) as [jwe|e]; [|exact Y].
      destruct (D (ro_return a) (UrlEncoded.form_serialize [("response", jwe)])) as (l & L & L1 & L2).
      rewrite L. eexists. eexists. exists (get_events uok ar ++ l). split; [reflexivity|]. rewrite app_length. split; [lia|].
      intros q' I. apply in_app_or in I as [I|I]; [right; auto|apply L2, I]. }
  destruct E as (r & body & l & L & L1 & L2). rewrite wire_http, L. split.
  - assert (K : forall l, (length (flat_map (fun r => fst (execute up join uok net limit r)) l) <= length l * S limit)%nat).
    { clear. intros l. induction l as [|r l IH]; [cbn; lia|]. cbn [flat_map length]. rewrite app_length.
      pose proof (execute_length up join uok net limit r). lia. }
    specialize (K l). nia.
  - exists body. intros q I. apply in_flat_map in I as (r0 & I0 & I). destruct (L2 r0 I0) as [->|(M & B & Hh)].
    + apply in_split in I as (pre & post & I). apply c111_body_pf in I; [|discriminate]. destruct I as [(_ & M & B)|[_ B]]; [right|left; exact B].
      split; [exact M|exact B].
    + left. assert (G : forall s, bare_get (at_uri s r0)).
      { intros s. split; [exact M|]. split; [exact B|]. cbn [at_uri rq_headers]. intros k v J. destruct Hh as [Hh|Hh]; rewrite Hh in J; [destruct J|].
        destruct J as [J|[]]. injection J as <- _. rewrite about_iff.
        change (lower_ascii "Prefer") with "prefer". cbn [In]. intros C. repeat (destruct C as [C|C]; [discriminate|]). exact C. }
      destruct (c111_execute_pf up join uok net limit r0) as [Z C]. destruct (up (rq_uri r0)) as [u'|] eqn:U.
      * destruct (web_url u') eqn:V.
        -- apply web_iff in V. destruct (C u' eq_refl V) as (x & z & H & _). eapply chain_bare; [exact H|apply G|exact I].
        -- destruct Z as [Z _]. { intros v [= <-] H. apply web_iff in H. congruence. } rewrite Z in I. destruct I.
      * destruct Z as [Z _]; [discriminate|]. rewrite Z in I. destruct I.
Qed.
Definition sent_by_example (net : http_req -> res exchange) : list http_req :=
  wire simple_parse toy_join (fun _ => true) net 10
    (fst (ExWallet.authorize simple_parse any_header (fun _ => true) (fun _ => true) (fun _ _ _ => Err "") (fun s => s) (fun _ => "S") 5
            (reqwest_client simple_parse toy_join (fun _ => true) net 10) PfExample.ex_endpoint [PfExample.pid] true
            (PfExample.ex_params (Some "redirect_uri:https://v.example/resp") (PfExample.ex_object "redirect_uri:https://v.example/resp")))).
Example c111_example_ex :
  map (fun q => (rq_method q, rq_uri q)) (sent_by_example (toy_net 307 "https://v.example/new"))
    = [("POST", "https://v.example/resp"); ("POST", "https://v.example/new")]
  /\ map (fun q => (rq_method q, rq_uri q)) (sent_by_example (toy_net 302 "/new"))
    = [("POST", "https://v.example/resp"); ("GET", "https://v.example/new")]
  /\ (length (sent_by_example loop_net) = 11)%nat.
Proof. repeat split; vm_compute; reflexivity. Qed.
