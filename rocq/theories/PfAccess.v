From Verif Require Import Base BaseFacts Json Url Object Formats Params Dcql Response Request.
From Verif Require Import Spec SpecObject SpecRequest SpecDcql SpecReading PfRequest PfReading.

(** C09: the other accessors of a parsed request too say what its members say: an ID token is asked for by exactly the
    response type "vp_token id_token", not asked for by exactly "vp_token", and unknown for any other; the state, the
    query and the client metadata are those of the members with these names, absent exactly when these are. *)
Lemma c09_accessors_pf :
  forall (url_parse : string -> option url) (o : obj) (a : aro),
    aro_of_obj url_parse o = Ok a ->
    (is_id_token_requested a = Some true <-> text_at "response_type" o "vp_token id_token")
    /\ (is_id_token_requested a = Some false <-> text_at "response_type" o "vp_token")
    /\ (forall s, aro_state a = Some (Ok s) <-> text_at "state" o s)
    /\ (aro_state a = None <-> absent "state" o)
    /\ (forall q, aro_dcql a = Some (Ok q) <-> exists v, obj_get "dcql_query" o = Some v /\ is_query v q)
    /\ (aro_dcql a = None <-> absent "dcql_query" o)
    /\ (forall m, aro_client_metadata a = Ok m <-> obj_get "client_metadata" o = Some (JObj m))
    /\ (forall f, aro_vp_formats a = Ok f <-> exists m, obj_get "client_metadata" o = Some (JObj m) /\ uo_get p_vp_formats m = Some (Ok f)).
Proof.
  intros up o a H. apply aro_of_inv in H as [Hi Hcl Hs Hm (s & Ht & Hty) Hno Hre Hret].
  destruct c98_text_pf as (_ & _ & _ & (S1 & S2 & _) & _). destruct c98_structured_pf as ((M1 & M2 & _) & _ & _ & (D1 & D2 & _)).
  assert (Tx : forall t, text_at "response_type" o t <-> t = s) by (intros t; unfold text_at in *; rewrite Ht; split; congruence).
  assert (Md : forall m, aro_client_metadata a = Ok m <-> obj_get "client_metadata" o = Some (JObj m)).
  { intros m. unfold aro_client_metadata, aro_get. rewrite Hi. specialize (M1 o m). unfold is_object in M1.
    destruct (uo_get p_client_metadata o) as [x|]; (split; intros H; [|]).
    - destruct (proj1 M1) as (v & E & ->); [congruence|exact E].
    - assert (E : Some x = Some (Ok m)) by (apply M1; eauto). congruence.
    - discriminate.
    - assert (E : None = Some (Ok m)) by (apply M1; eauto). discriminate. }
  refine (conj _ (conj _ (conj _ (conj _ (conj _ (conj _ (conj Md _))))))).
  - rewrite Tx. unfold is_id_token_requested. rewrite Hty. unfold rtype_of_string.
    destruct (String.eqb_spec s "vp_token") as [->|]; [split; discriminate|]. destruct (String.eqb_spec s "vp_token id_token") as [->|]; split; congruence.
  - rewrite Tx. unfold is_id_token_requested. rewrite Hty. unfold rtype_of_string.
    destruct (String.eqb_spec s "vp_token") as [->|]; [split; congruence|]. destruct (String.eqb_spec s "vp_token id_token") as [->|]; split; congruence.
  - intros t. unfold aro_state, aro_get. rewrite Hi, S1. unfold is_text, text_at. split; [intros (v & E & ->); exact E|eauto].
  - unfold aro_state, aro_get. rewrite Hi. apply S2.
  - intros q. unfold aro_dcql, aro_get. rewrite Hi. apply D1.
  - unfold aro_dcql, aro_get. rewrite Hi. apply D2.
  - intros f. unfold aro_vp_formats. split.
    + intros H. apply rbind_ok in H as (m & E & H). exists m. split; [now apply Md|]. unfold cm_vp_formats in H. destruct (uo_get p_vp_formats m); [congruence|discriminate].
    + intros (m & E & H). apply Md in E. rewrite E. cbn [rbind]. unfold cm_vp_formats. now rewrite H.
Qed.
Example c09_accessors_ex :
  option_map (fun a => (is_id_token_requested a, aro_state a)) (match aro_of_obj simple_parse (obj_insert "state" (JStr "s1") (obj_insert "response_type" (JStr "vp_token id_token") sample_request)) with Ok a => Some a | Err _ => None end)
  = Some (Some true, Some (Ok "s1")).
Proof. vm_compute. reflexivity. Qed.
