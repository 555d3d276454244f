(** C99: where the code can panic. *)
From Verif Require Import Base BaseFacts Json JsonFacts Serde Url Object Formats Params Metadata Dcql Effects Jwt Request X509 SpecCert CertFacts Client ExVerifier ExCli
  PfExCli PfDid PfClient.

(** C99: making an X.509 client panics exactly when the certificate chain is empty. *)
Lemma c99_chain_pf
  : forall (key : Type) (to_der : cert -> res string) (x5c : list cert) (s : signer key),
    (forall c, to_der c <> Err "panic") ->
    (x509_san_client to_der x5c s = Err "panic" <-> x5c = [])
    /\ (x509_hash_client to_der x5c s = Err "panic" <-> x5c = []).
Proof.
  intros key to_der x5c s T. destruct x5c as [|c r]; [split; split; reflexivity|]. cbn [x509_san_client x509_hash_client].
  split; (split; [|discriminate]).
  - destruct (nth_error (c_dns c) 0); cbn; discriminate.
  - specialize (T c). destruct (to_der c) as [der|e]; cbn [rbind]; [discriminate|]. intros X. congruence.
Qed.
Example c99_chain_ex
  : x509_san_client (fun c => Ok (c_spki c)) [] (toy_signer "K") = Err "panic"
    /\ (exists c, x509_hash_client (fun c => Ok (c_spki c)) [named [] "K"] (toy_signer "K") = Ok c).
Proof. split; [reflexivity|]. eexists. reflexivity. Qed.

(** C99: the static wallet metadata panic exactly when the URL parser cannot read "openid4vp:", or cannot read back
    what it made of it. *)
Lemma c99_static_pf
  : forall parse : string -> option url,
    scheme_static parse = Err "panic" <-> parse "openid4vp:" = None \/ exists u, parse "openid4vp:" = Some u /\ parse (url_str u) = None.
Proof.
  intros parse. unfold scheme_static. destruct (parse "openid4vp:") as [u|] eqn:E; cbn [rbind]; [|split; auto].
  set (o := uo_put p_signing_algs _ _). pose (o' := [("authorization_endpoint", JStr (url_str u));
    ("request_object_signing_alg_values_supported", JArr [JStr "ES256"]); ("response_types_supported", JArr [JStr "vp_token"]);
    ("vp_formats_supported", JObj [("jwt_vc_json", JObj [("alg_values", JArr [JStr "ES256"])])])]).
  assert (Ho : o = o') by reflexivity. clearbody o. subst o o'.
  unfold wm_of_obj, uo_get. cbn. unfold de_url. cbn. destruct (parse (url_str u)) as [u0|] eqn:Y; cbn; split.
  - discriminate.
  - intros [X|(u' & X & Z)]; [discriminate|]. injection X as <-. congruence.
  - intros _. right. exists u. auto.
  - reflexivity.
Qed.
Example c99_static_ex : is_ok (scheme_static simple_parse) = true /\ scheme_static (fun _ => None) = Err "panic".
Proof. split; vm_compute; reflexivity. Qed.

(** C99: none of the command line verifier's unwrapped conversions to a non-empty list panics, whatever the types. *)
Lemma c99_types_pf
  : forall types : list string, query_for_types types <> Err "panic".
Proof.
  intros types. rewrite types_eq. destruct (mapM for_type types) as [l|e] eqn:E; cbn [rbind].
  - unfold query_of. destruct (flat_map fst l); discriminate.
  - assert (X : e = "Unknown credential type"); [|rewrite X; discriminate]. revert e E. induction types as [|t types IH]; intros e; [discriminate|].
    cbn [mapM]. destruct (for_type t) as [x|e'] eqn:F; cbn [rbind].
    + destruct (mapM for_type types) as [l|e0]; cbn [rbind]; [discriminate|]. intros H. injection H as <-. now apply IH.
    + intros H. injection H as <-. unfold for_type in F. repeat (destruct (String.eqb t _); [discriminate F|]). congruence.
Qed.
Example c99_types_ex : query_for_types [] = Err "At least one credential type must be specified" /\ is_ok (query_for_types ["ldp_or_mdl"; "mdl"]) = true.
Proof. split; reflexivity. Qed.
