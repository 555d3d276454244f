From Coq Require Import Lia.
From Verif Require Import Base BaseFacts Json JsonFacts Serde Object Params SpecObject.

(** C01: after inserting a value that survives conversion, [get] returns it, other keys are
    unchanged and the previous value is returned. *)
Lemma c01_insert_pf :
  forall (T : Type) (P : tparam T) (t : T) (v : json) (o : obj),
    tp_to P t = Ok v -> tp_of P v = Ok t ->
    uo_get P (fst (uo_insert P t o)) = Some (Ok t)
    /\ snd (uo_insert P t o) = uo_get P o
    /\ (forall (U : Type) (Q : tparam U), tp_key Q <> tp_key P ->
          uo_get Q (fst (uo_insert P t o)) = uo_get Q o)
    /\ (forall k, k <> tp_key P -> obj_get k (fst (uo_insert P t o)) = obj_get k o).
Proof.
  intros T P t v o Hv Ht. unfold uo_insert. rewrite Hv. cbn [fst snd]. unfold uo_get. repeat split.
  - now rewrite obj_get_insert_eq, Ht.
  - intros U Q H. now rewrite obj_get_insert_neq.
  - intros k H. now rewrite obj_get_insert_neq.
Qed.

Example c01_insert_ex :
  tp_to p_nonce "n-0S6" = Ok (JStr "n-0S6") /\ tp_of p_nonce (JStr "n-0S6") = Ok "n-0S6"
  /\ snd (uo_insert p_nonce "n-0S6" [("nonce", JInt 7); ("zzz", JNull)]) = Some (Err "expected-string")
  /\ uo_get p_nonce (fst (uo_insert p_nonce "n-0S6" [("nonce", JInt 7); ("zzz", JNull)])) = Some (Ok "n-0S6").
Proof. repeat split. Qed.

(** C01: a value that cannot be converted leaves the object unchanged and reports an error. *)
Lemma c01_insert_failed_pf :
  forall (T : Type) (P : tparam T) (t : T) (e : string) (o : obj),
    tp_to P t = Err e ->
    fst (uo_insert P t o) = o /\ exists e', snd (uo_insert P t o) = Some (Err e').
Proof. intros T P t e o H. unfold uo_insert. rewrite H. cbn. eauto. Qed.

Example c01_insert_failed_ex :
  let P := mk_tparam "k" de_str (fun s => if String.eqb s "bad" then Err "no" else Ok (JStr s)) in
  tp_to P "bad" = Err "no" /\ fst (uo_insert P "bad" [("k", JStr "old")]) = [("k", JStr "old")].
Proof. split; reflexivity. Qed.

(** C01: removing makes the parameter absent, returns what was there and leaves other keys. *)
Lemma c01_remove_pf :
  forall (T : Type) (P : tparam T) (o : obj),
    keys_sorted o = true ->
    uo_get P (fst (uo_remove P o)) = None
    /\ snd (uo_remove P o) = uo_get P o
    /\ (forall k, k <> tp_key P -> obj_get k (fst (uo_remove P o)) = obj_get k o).
Proof.
  intros T P o H. apply keys_sorted_iff in H. unfold uo_remove, uo_get.
  destruct (obj_get (tp_key P) o) as [v|] eqn:E; cbn [fst snd].
  - rewrite obj_get_remove_eq by exact H. repeat split. intros k Hk. now apply obj_get_remove_neq.
  - rewrite E. repeat split.
Qed.

Example c01_remove_ex :
  keys_sorted [("a", JNull); ("nonce", JStr "x")] = true
  /\ fst (uo_remove p_nonce [("a", JNull); ("nonce", JStr "x")]) = [("a", JNull)].
Proof. split; reflexivity. Qed.

(** C01: any sequence of inserts and removes, of any parameter types, behaves as on a finite map:
    every later [get] sees exactly what the map holds. *)
Lemma c01_sequence_pf :
  forall (ops : list obj_op) (o : obj),
    keys_sorted o = true ->
    keys_sorted (fold_left run_op ops o) = true
    /\ forall (T : Type) (P : tparam T),
         uo_get P (fold_left run_op ops o)
         = option_map (tp_of P) (fold_left spec_op ops (fun k => obj_get k o) (tp_key P)).
Proof.
  assert (H : forall ops o m, ksorted o -> (forall k, obj_get k o = m k) ->
            ksorted (fold_left run_op ops o)
            /\ forall k, obj_get k (fold_left run_op ops o) = fold_left spec_op ops m k).
  { induction ops as [|op ops IH]; intros o m Hs Hm; [now split|]. cbn [fold_left]. apply IH.
    - destruct op as [T P t|T P]; cbn [run_op].
      + unfold uo_insert. destruct (tp_to P t); [|exact Hs]. now apply ksorted_insert.
      + unfold uo_remove. destruct (obj_get _ o); [|exact Hs]. now apply ksorted_remove.
    - intros k. destruct op as [T P t|T P]; cbn [run_op spec_op].
      + unfold uo_insert. destruct (tp_to P t) as [v|e]; [|apply Hm]. cbn [fst].
        rewrite obj_get_insert. destruct (String.eqb k (tp_key P)); [reflexivity|apply Hm].
      + unfold uo_remove. destruct (String.eqb_spec k (tp_key P)) as [->|N].
        * destruct (obj_get (tp_key P) o) as [v|] eqn:E; [|exact E]. now apply obj_get_remove_eq.
        * destruct (obj_get (tp_key P) o) as [v|] eqn:E; [|apply Hm]. cbn [fst].
          rewrite obj_get_remove_neq by exact N. apply Hm. }
  intros ops o Hs. apply keys_sorted_iff in Hs.
  destruct (H ops o (fun k => obj_get k o) Hs (fun _ => eq_refl)) as [H1 H2].
  split; [now apply keys_sorted_iff|]. intros T P. unfold uo_get. rewrite H2.
  now destruct (fold_left spec_op ops _ _).
Qed.

Example c01_sequence_ex :
  fold_left run_op [OpInsert p_nonce "x"; OpInsert p_client_id "c"; OpRemove p_nonce; OpInsert p_state "s"] []
  = [("client_id", JStr "c"); ("state", JStr "s")].
Proof. reflexivity. Qed.

(** C02: [get] is [None] exactly when the key is absent, and an error exactly when the key is present
    with a value the type rejects. *)
Lemma c02_get_pf :
  forall (T : Type) (P : tparam T) (o : obj),
    keys_sorted o = true ->
    (uo_get P o = None <-> ~ In (tp_key P) (map fst o))
    /\ (forall e, uo_get P o = Some (Err e) <-> exists v, In (tp_key P, v) o /\ tp_of P v = Err e)
    /\ (forall t, uo_get P o = Some (Ok t) <-> exists v, In (tp_key P, v) o /\ tp_of P v = Ok t).
Proof.
  intros T P o Hs. apply keys_sorted_iff in Hs. unfold uo_get.
  assert (K : forall r, match obj_get (tp_key P) o with Some v => Some (tp_of P v) | None => None end = Some r
              <-> exists v, In (tp_key P, v) o /\ tp_of P v = r).
  { intros r. split.
    - destruct (obj_get (tp_key P) o) as [v|] eqn:E; [|discriminate]. intros H. injection H as H.
      exists v. split; [now apply obj_get_in|exact H].
    - intros (v & Hi & H). rewrite (ksorted_get_in _ _ _ Hs Hi). now rewrite H. }
  split; [|split; intros; apply K].
  rewrite <- obj_get_none. destruct (obj_get (tp_key P) o); split; congruence.
Qed.

Example c02_get_ex :
  uo_get p_nonce [("nonce", JInt 3)] = Some (Err "expected-string") /\ uo_get p_nonce [] = None.
Proof. split; reflexivity. Qed.

(** C02: [get_or_default] uses the default exactly when the key is absent; a malformed value is an
    error, never the default. *)
Lemma c02_default_pf :
  forall (T : Type) (P : tparam T) (d : T) (o : obj),
    (~ In (tp_key P) (map fst o) -> uo_get_or_default P d o = Ok d)
    /\ (In (tp_key P) (map fst o) ->
          exists v, In (tp_key P, v) o /\ uo_get_or_default P d o = tp_of P v
                    /\ uo_get P o = Some (uo_get_or_default P d o)).
Proof.
  intros T P d o. unfold uo_get_or_default, uo_get. split; intros H.
  - apply obj_get_none in H. now rewrite H.
  - destruct (obj_get (tp_key P) o) as [v|] eqn:E.
    + exists v. repeat split. now apply obj_get_in.
    + apply obj_get_none in E. contradiction.
Qed.

Example c02_default_ex :
  uo_get_or_default p_response_mode default_mode [("response_mode", JInt 3)] = Err "expected-string"
  /\ uo_get_or_default p_response_mode default_mode [] = Ok DirectPost
  /\ uo_get_or_default p_response_mode default_mode [("response_mode", JStr "dc_api")] = Ok DcApi.
Proof. repeat split. Qed.

(** C02: demanding a parameter succeeds exactly when it is present and well-formed, and the error tells whether it is
    missing or malformed. *)
Lemma c02_required_pf :
  forall (T : Type) (P : tparam T) (o : obj),
    let demanded := parsing_error (uo_get P o) in
    (forall t, demanded = Ok t <-> uo_get P o = Some (Ok t))
    /\ (demanded = Err "missing parameter" <-> uo_get P o = None)
    /\ (demanded = Err "unable to parse parameter" <-> exists e, uo_get P o = Some (Err e)).
Proof.
  intros T P o demanded. unfold demanded. destruct (uo_get P o) as [[x|e]|]; cbn [parsing_error]; (split; [intros t|split]); split;
    try congruence; try discriminate; try (intros [? ?]; congruence); eauto.
Qed.

Example c02_required_ex :
  parsing_error (uo_get p_nonce [("nonce", JStr "x")]) = Ok "x"
  /\ parsing_error (uo_get p_nonce [("nonce", JInt 3)]) = Err "unable to parse parameter"
  /\ parsing_error (uo_get p_nonce []) = Err "missing parameter".
Proof. repeat split. Qed.
