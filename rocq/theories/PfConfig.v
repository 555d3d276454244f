From Coq Require Import Lia.
From Verif Require Import Base BaseFacts Utf8 Json JsonFacts JsonText JsonTextFacts Base64 Base64Facts Sha256 Url Object Formats Params Metadata Dcql Effects Jwt
  Request Session X509 SpecCert CertFacts Client Builder MapFacts Spec SpecObject SpecRequest SpecVerify SpecBuilder PfText PfBuilder PfSession PfClient PfX509 PfDid PfExServer
  SpecVerifierEx SpecConfig.

(* --------------------------------------------------------------------- C83 *)
Lemma made_signed {key} (s : signer key) h l body : keys_sorted h = true -> (forall kv, In kv h <-> In kv l) ->
  signed_jwt s (make_jwt (JObj h) body s) l (aro_to_json body).
Proof.
  intros S E. unfold make_jwt. exists (JObj h). do 3 eexists. split; [now apply members_of|].
  split; [split; [reflexivity|]; split; apply b64url_no_dot|]. repeat split; apply b64_rt.
Qed.

(** C83: a DID client can be made exactly from a verification method with a fragment that the resolver resolves to
    the signer's own key. *)
Lemma c83_did_made_pf
  : forall (key : Type) (key_eqb : key -> key -> bool) (resolver : string -> res key) (vm : string) (s : signer key),
    (exists c, did_client key_eqb resolver vm s = Ok c) <->
    (exists did fragment, vm = did +:+ "#" +:+ fragment)
    /\ exists k own, resolver vm = Ok k /\ sg_jwk s = Ok own /\ key_eqb k own = true.
Proof.
  intros key keq rs vm s. unfold did_client. split.
  - intros (c & H). apply rbind_ok in H as ([id fr] & R & H). apply ok_or_ok, rsplit_once_some in R as (-> & _).
    apply rbind_ok in H as (k & K & H). apply context_ok in K. apply rbind_ok in H as (own & O & H). apply context_ok in O.
    apply rbind_ok in H as (x & E & _). apply of_bool_ok in E. split; [exists id, fr; reflexivity|]. exists k, own. auto.
  - intros ((did & fr & E) & k & own & K & O & Q). destruct (rsplit_once "#" vm) as [[a b]|] eqn:R.
    + cbn [ok_or rbind]. rewrite K, O. cbn [context rbind]. rewrite Q. cbn. eauto.
    + exfalso. apply rsplit_once_none in R. subst vm. rewrite !has_char_app in R. cbn in R. rewrite Bool.orb_true_r in R. discriminate.
Qed.

(** C83: it then identifies itself with the DID of the verification method, and every JWT it makes is the request object
    signed under a header with the signer's algorithm and that verification method. *)
Lemma c83_did_pf
  : forall (key : Type) (key_eqb : key -> key -> bool) (resolver : string -> res key) (vm : string) (s : signer key) (c : client),
    did_client key_eqb resolver vm s = Ok c ->
    exists did fragment,
      vm = did +:+ "#" +:+ fragment /\ has_char "#" fragment = false
      /\ cl_client_id c = "decentralized_identifier:" +:+ did /\ cl_prefix c = "decentralized_identifier"
      /\ (forall body jwt, cl_jwt c body = Ok jwt -> exists alg, sg_alg s = Ok alg
            /\ signed_jwt s jwt [("alg", JStr alg); ("kid", JStr vm); ("typ", JStr "oauth-authz-req+jwt")] (aro_to_json body))
      /\ (forall body, (exists jwt, cl_jwt c body = Ok jwt) <-> exists alg, sg_alg s = Ok alg).
Proof.
  intros key keq rs vm s c H. unfold did_client in H. apply rbind_ok in H as ([id fr] & R & H). apply ok_or_ok, rsplit_once_some in R as (-> & N).
  apply rbind_ok in H as (k & _ & H). apply rbind_ok in H as (own & _ & H). apply rbind_ok in H as (x & _ & H).
  assert (E : c = mk_client (DECENTRALIZED_IDENTIFIER +:+ ":" +:+ id) DECENTRALIZED_IDENTIFIER
        (fun body => let? alg := sg_alg s in Ok (make_jwt (did_header alg (id +:+ "#" +:+ fr)) body s))).
  { apply (f_equal (fun r => match r with Ok y => y | Err _ => c end)) in H. exact (eq_sym H). }
  subst c. exists id, fr. split; [reflexivity|]. split; [exact N|]. split; [reflexivity|]. split; [reflexivity|]. cbn [cl_jwt]. split.
  - intros body jwt J. apply rbind_ok in J as (alg & A & J). exists alg. split; [exact A|].
    apply (f_equal (fun r => match r with Ok y => y | Err _ => "" end)) in J. subst jwt. apply made_signed; [reflexivity|reflexivity].
  - intros body. split.
    + intros (jwt & J). apply rbind_ok in J as (alg & A & _). eauto.
    + intros (alg & A). rewrite A. cbn [rbind]. eauto.
Qed.
Example c83_did_ex :
  match did_client String.eqb toy_resolver "did:web:v.example#1" (toy_signer "K") with
  | Ok c => cl_client_id c = "decentralized_identifier:did:web:v.example" | Err _ => False end
  /\ is_ok (did_client String.eqb toy_resolver "did:web:v.example" (toy_signer "K")) = false
  /\ is_ok (did_client String.eqb toy_resolver "did:web:v.example#1" (toy_signer "X")) = false.
Proof. vm_compute. repeat split. Qed.
Example c83_did_made_ex :
  is_ok (did_client String.eqb toy_resolver "did:web:v.example#1" (toy_signer "K")) = true
  /\ is_ok (did_client String.eqb toy_resolver "did:web:v.example#1" (toy_signer "X")) = false.
Proof. vm_compute. repeat split. Qed.

Lemma x509_signed {key} to_der chain (s : signer key) body jwt : x509_jwt to_der chain s body = Ok jwt ->
  exists alg ders, sg_alg s = Ok alg /\ Forall2 (fun c der => to_der c = Ok der) chain ders
    /\ signed_jwt s jwt [("alg", JStr alg); ("typ", JStr "oauth-authz-req+jwt"); ("x5c", JArr (map (fun der => JStr (b64std_encode der)) ders))]
         (aro_to_json body).
Proof.
  unfold x509_jwt. intros H. apply rbind_ok in H as (alg & A & H). apply rbind_ok in H as (ders & D & H). apply mapM_ok in D.
  apply (f_equal (fun r => match r with Ok y => y | Err _ => "" end)) in H. subst jwt. exists alg, ders. split; [exact A|]. split; [exact D|].
  unfold x5c_header. rewrite map_map. apply made_signed; reflexivity.
Qed.

(** C83: an x509_san_dns client can be made exactly from a chain whose first certificate has a DNS name, an x509_hash
    client exactly from a chain whose first certificate can be encoded.  (An empty chain is a panic.) *)
Lemma c83_x509_made_pf
  : forall (key : Type) (to_der : cert -> res string) (chain : list cert) (s : signer key),
    ((exists c, x509_san_client to_der chain s = Ok c) <-> exists leaf rest dns more, chain = leaf :: rest /\ dns_names leaf (dns :: more))
    /\ ((exists c, x509_hash_client to_der chain s = Ok c) <-> exists leaf rest der, chain = leaf :: rest /\ to_der leaf = Ok der).
Proof.
  intros key td chain s. split; split.
  - intros (c & H). destruct chain as [|leaf rest]; [discriminate|]. unfold x509_san_client in H. apply rbind_ok in H as (dns & D & _). apply ok_or_ok in D.
    destruct (c_dns leaf) as [|d more] eqn:E; [discriminate|]. exists leaf, rest, d, more. split; [reflexivity|]. now apply dns_cons.
  - intros (leaf & rest & dns & more & -> & E). apply dns_cons in E. unfold x509_san_client. rewrite E. cbn. eauto.
  - intros (c & H). destruct chain as [|leaf rest]; [discriminate|]. unfold x509_hash_client in H. apply rbind_ok in H as (der & D & _). eauto.
  - intros (leaf & rest & der & -> & E). unfold x509_hash_client. rewrite E. cbn. eauto.
Qed.
Example c83_x509_made_ex :
  is_ok (x509_san_client toy_der toy_chain (toy_signer "K")) = true /\ is_ok (x509_hash_client toy_der toy_chain (toy_signer "K")) = true
  /\ is_ok (x509_san_client toy_der [named [] "K"] (toy_signer "K")) = false.
Proof. vm_compute. repeat split. Qed.

(** C83: the X.509 clients identify themselves with the first DNS name of the first certificate, or with the hash of
    its encoding; every JWT they make is the request object signed under a header with the signer's algorithm and the
    whole chain, first certificate first. *)
Lemma c83_x509_pf
  : forall (key : Type) (to_der : cert -> res string) (leaf : cert) (rest : list cert) (s : signer key) (c : client),
    (x509_san_client to_der (leaf :: rest) s = Ok c ->
       cl_prefix c = "x509_san_dns" /\ exists dns more, dns_names leaf (dns :: more) /\ cl_client_id c = "x509_san_dns:" +:+ dns)
    /\ (x509_hash_client to_der (leaf :: rest) s = Ok c ->
       cl_prefix c = "x509_hash" /\ exists der, to_der leaf = Ok der /\ cl_client_id c = "x509_hash:" +:+ b64url_encode (sha256 der))
    /\ (x509_san_client to_der (leaf :: rest) s = Ok c \/ x509_hash_client to_der (leaf :: rest) s = Ok c ->
       (forall body jwt, cl_jwt c body = Ok jwt ->
          exists alg ders, sg_alg s = Ok alg /\ Forall2 (fun x der => to_der x = Ok der) (leaf :: rest) ders
            /\ signed_jwt s jwt [("alg", JStr alg); ("typ", JStr "oauth-authz-req+jwt");
                                 ("x5c", JArr (map (fun der => JStr (b64std_encode der)) ders))] (aro_to_json body))
       /\ (forall body, (exists jwt, cl_jwt c body = Ok jwt)
             <-> (exists alg, sg_alg s = Ok alg) /\ forall x, In x (leaf :: rest) -> exists der, to_der x = Ok der)).
Proof.
  intros key td leaf rest s c.
  assert (San : x509_san_client td (leaf :: rest) s = Ok c -> exists dns more, c_dns leaf = dns :: more
     /\ c = mk_client (X509_SAN_DNS +:+ ":" +:+ dns) X509_SAN_DNS (x509_jwt td (leaf :: rest) s)).
  { unfold x509_san_client. intros H. apply rbind_ok in H as (dns & D & H). apply ok_or_ok in D. destruct (c_dns leaf) as [|d more]; [discriminate|].
    exists d, more. split; [reflexivity|]. cbn in D. congruence. }
  assert (Ha : x509_hash_client td (leaf :: rest) s = Ok c -> exists der, td leaf = Ok der
     /\ c = mk_client (X509_HASH +:+ ":" +:+ b64url_encode (sha256 der)) X509_HASH (x509_jwt td (leaf :: rest) s)).
  { unfold x509_hash_client. intros H. apply rbind_ok in H as (der & D & H). exists der. split; [exact D|]. congruence. }
  split; [|split].
  - intros H. destruct (San H) as (dns & more & E & ->). split; [reflexivity|]. exists dns, more. split; [now apply dns_cons|reflexivity].
  - intros H. destruct (Ha H) as (der & E & ->). split; [reflexivity|]. exists der. split; [exact E|reflexivity].
  - intros H. assert (J : cl_jwt c = x509_jwt td (leaf :: rest) s).
    { destruct H as [H|H]; [destruct (San H) as (? & ? & _ & ->)|destruct (Ha H) as (? & _ & ->)]; reflexivity. }
    rewrite J. split.
    + intros body jwt. apply x509_signed.
    + intros body. split.
      * intros (jwt & X). apply x509_signed in X as (alg & ders & A & F & _). split; [eauto|]. intros x Hx.
        clear - F Hx. induction F; destruct Hx; subst; eauto.
      * intros ((alg & A) & D). unfold x509_jwt. rewrite A. cbn [rbind].
        assert (exists ders, mapM td (leaf :: rest) = Ok ders) as (ders & E).
        { clear - D. induction (leaf :: rest) as [|x l IH]; [now exists []|]. destruct (D x) as (d & Hd); [now left|].
          destruct IH as (ds & E); [intros; apply D; now right|]. exists (d :: ds). cbn [mapM]. rewrite Hd. cbn [rbind]. now rewrite E. }
        rewrite E. cbn. eauto.
Qed.
Example c83_x509_ex :
  toy_chain <> []
  /\ match x509_san_client toy_der toy_chain (toy_signer "K") with
     | Ok c => cl_client_id c = "x509_san_dns:other.example" /\ is_ok (cl_jwt c toy_aro) = true | Err _ => False end
  /\ match x509_hash_client toy_der toy_chain (toy_signer "K") with Ok c => is_ok (cl_jwt c toy_aro) = true | Err _ => False end.
Proof. vm_compute. repeat split. discriminate. Qed.

(* --------------------------------------------------------------------- C84 *)
Lemma latest_unique {A B} (says : A -> option B) calls x y : latest says calls x -> latest says calls y -> x = y.
Proof.
  assert (Z : forall b b' pre c post pre' c' post', pre ++ c :: post = pre' ++ c' :: post' -> says c = Some b -> says c' = Some b' ->
     (forall l, In l post -> says l = None) -> (forall l, In l post' -> says l = None) -> b = b').
  { clear. intros b b' pre. induction pre as [|p pre IH]; intros c post pre' c' post' E C C' N N'.
    - destruct pre' as [|p' pre']; cbn in E; injection E as E1 E2; [congruence|]. subst. rewrite N in C' by (apply in_app_iff; right; now left). discriminate.
    - destruct pre' as [|p' pre']; cbn in E; injection E as E1 E2; [|eauto]. subst. rewrite N' in C by (apply in_app_iff; right; now left). discriminate. }
  destruct x as [b|], y as [b'|]; cbn.
  - intros (p & c & q & -> & C & N) (p' & c' & q' & E & C' & N'). f_equal. eapply Z; eauto.
  - intros (p & c & q & -> & C & N) H. rewrite H in C by (apply in_app_iff; right; now left). discriminate.
  - intros H (p & c & q & -> & C & N). rewrite H in C by (apply in_app_iff; right; now left). discriminate.
  - reflexivity.
Qed.
Lemma latest_snoc {A B} (says : A -> option B) calls c x : latest says calls x ->
  latest says (calls ++ [c]) (match says c with Some b => Some b | None => x end).
Proof.
  intros H. destruct (says c) as [b|] eqn:E; cbn.
  - exists calls, c, []. repeat split; auto. intros l [].
  - destruct x as [b|]; cbn in *.
    + destruct H as (p & d & q & -> & D & N). exists p, d, (q ++ [c]). rewrite <- app_assoc. repeat split; auto.
      intros l Hl. apply in_app_iff in Hl as [Hl|[<-|[]]]; auto.
    + intros l Hl. apply in_app_iff in Hl as [Hl|[<-|[]]]; auto.
Qed.

Definition configured (l : list setting) (b : verifier_builder) : Prop :=
  latest says_client l (vb_client b) /\ (vb_store b = true <-> In WithStore l) /\ latest says_submission l (vb_submission b)
  /\ (exists x, latest says_conveyance l x /\ vb_byref b = match x with Some y => y | None => None end)
  /\ forall n, latest (says_default n) l (obj_get n (vb_defaults b)).
Lemma configured_new : configured [] vb_new.
Proof.
  unfold configured. cbn. split; [intros ? []|]. split; [split; [discriminate|intros []]|]. split; [intros ? []|].
  split; [exists None; split; [intros ? []|reflexivity]|]. intros n ? [].
Qed.
Lemma put_is {T} (P : tparam T) t n v : tp_key P = n -> tp_to P t = Ok v -> forall o, uo_put P t o = obj_insert n v o.
Proof. intros <- E o. unfold uo_put, uo_insert. now rewrite E. Qed.
Lemma configured_snoc l b x call : configured l b -> makes x call -> configured (l ++ [x]) (call b).
Proof.
  intros (C & S & U & (v & V & B) & D) M. unfold configured.
  assert (St : forall y, y <> WithStore -> (In WithStore (l ++ [y]) <-> In WithStore l)).
  { intros y N. rewrite in_app_iff. split; [intros [X|[X|[]]]; [exact X|congruence]|auto]. }
  pose proof (latest_snoc _ _ x _ C) as C'. pose proof (latest_snoc _ _ x _ U) as U'. pose proof (latest_snoc _ _ x _ V) as V'.
  assert (D' := fun n => latest_snoc _ _ x _ (D n)).
  destruct x; cbn [makes] in M;
    [| | | | |destruct M as (T & P & t & M & K & J)]; subst call; cbn [says_client says_submission says_conveyance says_default] in *;
    cbn [vb_with_client vb_with_store vb_with_submission vb_by_reference vb_by_value vb_with_default vb_client vb_store vb_submission vb_byref vb_defaults];
    (split; [exact C'|]); (split; [first [rewrite St by discriminate; exact S|rewrite in_app_iff; cbn; tauto]|]);
    (split; [exact U'|]); (split; [eexists; split; [exact V'|first [exact B|reflexivity]]|]); try exact D'.
  intros m. rewrite (put_is P t _ _ K J), obj_get_insert. specialize (D' m). destruct (String.eqb m name); exact D'.
Qed.
Lemma configured_all l calls : Forall2 makes l calls -> configured l (fold_left (fun b f => f b) calls vb_new).
Proof.
  assert (G : forall l calls, Forall2 makes l calls -> forall l0 b, configured l0 b -> configured (l0 ++ l) (fold_left (fun b f => f b) calls b)).
  { induction 1 as [|x f l' cs M F IH]; intros l0 b H; [now rewrite app_nil_r|]. cbn [fold_left].
    replace (l0 ++ x :: l') with ((l0 ++ [x]) ++ l') by now rewrite <- app_assoc. apply IH. now apply configured_snoc. }
  intros F. apply (G l calls F [] vb_new configured_new).
Qed.

(** C84: a verifier can be built exactly when a client, a session store and a submission endpoint were given, in
    whatever order and however often. *)
Lemma c84_complete_pf
  : forall (settings : list setting) (calls : list (verifier_builder -> verifier_builder)),
    Forall2 makes settings calls ->
    ((exists v, vb_build (fold_left (fun b call => call b) calls vb_new) = Ok v) <->
     (exists c, In (WithClient c) settings) /\ In WithStore settings /\ exists u, In (WithSubmission u) settings).
Proof.
  intros l calls F. destruct (configured_all l calls F) as (C & S & U & _). set (b := fold_left _ calls vb_new) in *. unfold vb_build. split.
  - intros (v & H). apply rbind_ok in H as (c & Ec & H). apply ok_or_ok in Ec. apply rbind_ok in H as (x & Es & H). apply of_bool_ok in Es.
    apply rbind_ok in H as (u & Eu & H). apply ok_or_ok in Eu. rewrite Ec in C. rewrite Eu in U. cbn in C, U.
    destruct C as (p & y & q & -> & Y & _). destruct U as (p' & y' & q' & E' & Y' & _). split; [|split].
    + exists c. destruct y; try discriminate Y. injection Y as ->. apply in_app_iff. right. now left.
    + now apply S.
    + exists u. destruct y'; try discriminate Y'. injection Y' as ->. rewrite E'. apply in_app_iff. right. now left.
  - intros ((c & Hc) & Hs & u & Hu). destruct (vb_client b) as [c0|]; [|cbn in C; apply C in Hc; discriminate].
    apply S in Hs. rewrite Hs. destruct (vb_submission b) as [u0|]; [|cbn in U; apply U in Hu; discriminate]. cbn. eauto.
Qed.

(** C84: the verifier has the client and the submission endpoint given last, passes requests as said last (by default in
    the URL), and has for every parameter name the default given last. *)
Lemma c84_settings_pf
  : forall (settings : list setting) (calls : list (verifier_builder -> verifier_builder)) (v : verifier),
    Forall2 makes settings calls ->
    vb_build (fold_left (fun b call => call b) calls vb_new) = Ok v ->
    latest says_client settings (Some (v_client v))
    /\ latest says_submission settings (Some (v_submission v))
    /\ (forall x, latest says_conveyance settings x -> v_byref v = match x with Some y => y | None => None end)
    /\ (forall n, latest (says_default n) settings (obj_get n (v_defaults v))).
Proof.
  intros l calls v F H. destruct (configured_all l calls F) as (C & _ & U & (x & V & B) & D). set (b := fold_left _ calls vb_new) in *. unfold vb_build in H.
  apply rbind_ok in H as (c & Ec & H). apply ok_or_ok in Ec. apply rbind_ok in H as (y & _ & H).
  apply rbind_ok in H as (u & Eu & H). apply ok_or_ok in Eu. injection H as <-. cbn [v_client v_submission v_byref v_defaults]. rewrite Ec in C. rewrite Eu in U.
  split; [exact C|]. split; [exact U|]. split; [|exact D]. intros x' V'. rewrite (latest_unique _ _ _ _ V' V). exact B.
Qed.
Definition sample_calls : list (verifier_builder -> verifier_builder) :=
  [vb_with_default p_nonce "a"; vb_by_reference (toy_url "https://v.example/r"); vb_with_store; vb_with_client toy_client;
   vb_with_default p_nonce "b"; vb_with_submission (toy_url "https://v.example/s"); vb_by_value].
Definition sample_settings : list setting :=
  [WithDefault "nonce" (JStr "a"); ByReferenceAt (toy_url "https://v.example/r"); WithStore; WithClient toy_client;
   WithDefault "nonce" (JStr "b"); WithSubmission (toy_url "https://v.example/s"); InTheUrl].
Example c84_complete_ex : Forall2 makes sample_settings sample_calls.
Proof. unfold sample_settings, sample_calls. repeat constructor; cbn [makes]; exists string, p_nonce; eexists; repeat split; reflexivity. Qed.
Example c84_settings_ex :
  match vb_build (fold_left (fun b call => call b) sample_calls vb_new) with
  | Ok v => obj_get "nonce" (v_defaults v) = Some (JStr "b") /\ v_byref v = None
  | Err _ => False
  end.
Proof. vm_compute. split; reflexivity. Qed.

Definition chosen (v : verifier) (l : list choice) (b : request_builder) : Prop :=
  rb_verifier b = v /\ latest says_query l (rb_dcql b)
  /\ forall n, exists x, latest (says_parameter n) l x
       /\ obj_get n (rb_params b) = match x with Some y => Some y | None => obj_get n (v_defaults v) end.
Lemma chosen_all v l calls : Forall2 chooses l calls -> chosen v l (fold_left (fun b f => f b) calls (rb_new v)).
Proof.
  assert (G : forall l calls, Forall2 chooses l calls -> forall l0 b, chosen v l0 b -> chosen v (l0 ++ l) (fold_left (fun b f => f b) calls b)).
  { induction 1 as [|x f l' cs M F IH]; intros l0 b H; [now rewrite app_nil_r|]. cbn [fold_left].
    replace (l0 ++ x :: l') with ((l0 ++ [x]) ++ l') by now rewrite <- app_assoc. apply IH. destruct H as (V & Q & P).
    pose proof (latest_snoc _ _ x _ Q) as Q'. destruct x as [q|m y]; cbn [chooses] in M.
    - subst f. split; [exact V|]. split; [exact Q'|]. intros n. destruct (P n) as (z & Z & E). exists z. split; [|exact E].
      exact (latest_snoc _ _ (WithQuery q) _ Z).
    - destruct M as (T & Pp & t & -> & K & J). split; [exact V|]. split; [exact Q'|]. intros n. destruct (P n) as (z & Z & E).
      cbn [rb_with_param rb_params]. rewrite (put_is Pp t _ _ K J), obj_get_insert. pose proof (latest_snoc _ _ (WithParameter m y) _ Z) as Z'. cbn in Z'.
      destruct (String.eqb n m); eexists; (split; [exact Z'|]); [reflexivity|exact E]. }
  intros F. apply (G l calls F [] (rb_new v)). split; [reflexivity|]. split; [intros ? []|]. intros n. exists None. split; [intros ? []|reflexivity].
Qed.

(** C84: every request that a verifier builds asks the query given last, and has for every parameter name the value
    given last for this request, or else the verifier's default; except for client_id, which is the client's, and for
    response_uri in the direct_post modes, which is the session's. *)
Lemma c84_request_pf
  : forall (url_parse : string -> option url) (v : verifier) (choices : list choice)
      (calls : list (request_builder -> request_builder)) (id : uuid) (wm : wallet_metadata) (sess : session) (dest : url) (m m' : store),
    Forall2 chooses choices calls ->
    build_with_session_id url_parse (fold_left (fun b call => call b) calls (rb_new v)) id wm false m = (m', Ok dest) ->
    st_get id m' = Some sess ->
    latest says_query choices (Some (s_dcql sess))
    /\ text_at "client_id" (aro_to_obj (s_request sess)) (cl_client_id (v_client v))
    /\ obj_get "dcql_query" (aro_to_obj (s_request sess)) = Some (dcql_to_json (s_dcql sess))
    /\ forall n given, n <> "client_id" -> n <> "dcql_query" -> n <> "response_uri" -> latest (says_parameter n) choices given ->
         obj_get n (aro_to_obj (s_request sess)) = match given with Some x => Some x | None => obj_get n (v_defaults v) end.
Proof.
  intros up v l calls id wm sess dest m m' F H G. destruct (chosen_all v l calls F) as (V & Q & P). set (b := fold_left _ calls (rb_new v)) in *.
  unfold build_with_session_id, build_code in H. destruct (rb_prepare up b id wm) as [[s d]|e] eqn:E; [|discriminate H].
  apply (f_equal fst) in H. unfold run_plain in H. cbn in H. subst m'. apply prepare_inv in E as (U & Q' & B & _).
  rewrite U in G. rewrite StoreFacts.st_get_insert, N.eqb_refl in G. injection G as <-. destruct B as (B1 & B2 & B3 & _).
  split; [now rewrite <- Q'|]. split; [now rewrite <- V|]. split; [exact B2|]. intros n x N1 N2 N3 L. rewrite (B3 n N1 N2 N3).
  destruct (P n) as (y & Y & ->). now rewrite (latest_unique _ _ _ _ L Y).
Qed.
Definition sample_choices : list choice := [WithParameter "state" (JStr "x"); WithQuery toy_query; WithParameter "nonce" (JStr "c")].
Example c84_request_ex :
  Forall2 chooses sample_choices [rb_with_param p_state "x"; rb_with_dcql toy_query; rb_with_param p_nonce "c"]
  /\ match build_with_session_id simple_parse (fold_left (fun b call => call b) [rb_with_param p_state "x"; rb_with_dcql toy_query; rb_with_param p_nonce "c"]
            (rb_new (mk_verifier toy_client toy_params None (toy_url "https://v.example/s")))) 7%N toy_wm false [] with
     | (m', Ok dest) => match st_get 7%N m' with
                        | Some s => obj_get "nonce" (aro_to_obj (s_request s)) = Some (JStr "c")
                                    /\ obj_get "response_type" (aro_to_obj (s_request s)) = Some (JStr "vp_token")
                        | None => False end
     | (_, Err _) => False
     end.
Proof.
  split; [|vm_compute; split; reflexivity].
  unfold sample_choices. constructor; [exists string, p_state, "x"; repeat split|]. constructor; [reflexivity|]. constructor; [exists string, p_nonce, "c"; repeat split|]. constructor.
Qed.

(** C84: a default or a parameter whose value cannot be converted to JSON is dropped without an error. *)
Lemma c84_dropped_pf
  : forall (T : Type) (P : tparam T) (t : T) (e : string) (b : verifier_builder) (r : request_builder),
    tp_to P t = Err e -> vb_with_default P t b = b /\ rb_with_param P t r = r.
Proof.
  intros T P t e [c d y s u] [q p v] E. unfold vb_with_default, rb_with_param, uo_put, uo_insert. rewrite E. split; reflexivity.
Qed.
Example c84_dropped_ex : tp_to (mk_tparam "x" (fun _ => Ok tt) (fun _ => Err "no JSON")) tt = Err "no JSON".
Proof. reflexivity. Qed.
