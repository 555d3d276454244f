(** C01, C02: untyped objects. *)
From Coq Require Import Lia.
From Verif Require Import Base BaseFacts Json JsonFacts Serde Object Params SpecObject.
From Verif Require Import PfObject.

(** C01: after inserting a value that survives conversion, [get] returns it, other keys are
    unchanged and the previous value is returned. *)
Theorem c01_insert :
  forall (T : Type) (P : tparam T) (t : T) (v : json) (o : obj),
    tp_to P t = Ok v -> tp_of P v = Ok t ->
    uo_get P (fst (uo_insert P t o)) = Some (Ok t)
    /\ snd (uo_insert P t o) = uo_get P o
    /\ (forall (U : Type) (Q : tparam U), tp_key Q <> tp_key P ->
          uo_get Q (fst (uo_insert P t o)) = uo_get Q o)
    /\ (forall k, k <> tp_key P -> obj_get k (fst (uo_insert P t o)) = obj_get k o).
Proof. exact c01_insert_pf. Qed.
Print Assumptions c01_insert.

Example c01_insert_witness :
  tp_to p_nonce "n-0S6" = Ok (JStr "n-0S6") /\ tp_of p_nonce (JStr "n-0S6") = Ok "n-0S6"
  /\ snd (uo_insert p_nonce "n-0S6" [("nonce", JInt 7); ("zzz", JNull)]) = Some (Err "expected-string")
  /\ uo_get p_nonce (fst (uo_insert p_nonce "n-0S6" [("nonce", JInt 7); ("zzz", JNull)])) = Some (Ok "n-0S6").
Proof. exact c01_insert_ex. Qed.

(** C01: a value that cannot be converted leaves the object unchanged and reports an error. *)
Theorem c01_insert_failed :
  forall (T : Type) (P : tparam T) (t : T) (e : string) (o : obj),
    tp_to P t = Err e ->
    fst (uo_insert P t o) = o /\ exists e', snd (uo_insert P t o) = Some (Err e').
Proof. exact c01_insert_failed_pf. Qed.
Print Assumptions c01_insert_failed.

Example c01_insert_failed_witness :
  let P := mk_tparam "k" de_str (fun s => if String.eqb s "bad" then Err "no" else Ok (JStr s)) in
  tp_to P "bad" = Err "no" /\ fst (uo_insert P "bad" [("k", JStr "old")]) = [("k", JStr "old")].
Proof. exact c01_insert_failed_ex. Qed.

(** C01: removing makes the parameter absent, returns what was there and leaves other keys. *)
Theorem c01_remove :
  forall (T : Type) (P : tparam T) (o : obj),
    keys_sorted o = true ->
    uo_get P (fst (uo_remove P o)) = None
    /\ snd (uo_remove P o) = uo_get P o
    /\ (forall k, k <> tp_key P -> obj_get k (fst (uo_remove P o)) = obj_get k o).
Proof. exact c01_remove_pf. Qed.
Print Assumptions c01_remove.

Example c01_remove_witness :
  keys_sorted [("a", JNull); ("nonce", JStr "x")] = true
  /\ fst (uo_remove p_nonce [("a", JNull); ("nonce", JStr "x")]) = [("a", JNull)].
Proof. exact c01_remove_ex. Qed.

(** C01: any sequence of inserts and removes, of any parameter types, behaves as on a finite map:
    every later [get] sees exactly what the map holds. *)
Theorem c01_sequence :
  forall (ops : list obj_op) (o : obj),
    keys_sorted o = true ->
    keys_sorted (fold_left run_op ops o) = true
    /\ forall (T : Type) (P : tparam T),
         uo_get P (fold_left run_op ops o)
         = option_map (tp_of P) (fold_left spec_op ops (fun k => obj_get k o) (tp_key P)).
Proof. exact c01_sequence_pf. Qed.
Print Assumptions c01_sequence.

Example c01_sequence_witness :
  fold_left run_op [OpInsert p_nonce "x"; OpInsert p_client_id "c"; OpRemove p_nonce; OpInsert p_state "s"] []
  = [("client_id", JStr "c"); ("state", JStr "s")].
Proof. exact c01_sequence_ex. Qed.

(** C02: [get] is [None] exactly when the key is absent, and an error exactly when the key is present
    with a value the type rejects. *)
Theorem c02_get :
  forall (T : Type) (P : tparam T) (o : obj),
    keys_sorted o = true ->
    (uo_get P o = None <-> ~ In (tp_key P) (map fst o))
    /\ (forall e, uo_get P o = Some (Err e) <-> exists v, In (tp_key P, v) o /\ tp_of P v = Err e)
    /\ (forall t, uo_get P o = Some (Ok t) <-> exists v, In (tp_key P, v) o /\ tp_of P v = Ok t).
Proof. exact c02_get_pf. Qed.
Print Assumptions c02_get.

Example c02_get_witness :
  uo_get p_nonce [("nonce", JInt 3)] = Some (Err "expected-string") /\ uo_get p_nonce [] = None.
Proof. exact c02_get_ex. Qed.

(** C02: [get_or_default] uses the default exactly when the key is absent; a malformed value is an
    error, never the default. *)
Theorem c02_default :
  forall (T : Type) (P : tparam T) (d : T) (o : obj),
    (~ In (tp_key P) (map fst o) -> uo_get_or_default P d o = Ok d)
    /\ (In (tp_key P) (map fst o) ->
          exists v, In (tp_key P, v) o /\ uo_get_or_default P d o = tp_of P v
                    /\ uo_get P o = Some (uo_get_or_default P d o)).
Proof. exact c02_default_pf. Qed.
Print Assumptions c02_default.

Example c02_default_witness :
  uo_get_or_default p_response_mode default_mode [("response_mode", JInt 3)] = Err "expected-string"
  /\ uo_get_or_default p_response_mode default_mode [] = Ok DirectPost
  /\ uo_get_or_default p_response_mode default_mode [("response_mode", JStr "dc_api")] = Ok DcApi.
Proof. exact c02_default_ex. Qed.

(** C02: demanding a parameter succeeds exactly when it is present and well-formed, and the error tells whether it is
    missing or malformed. *)
Theorem c02_required :
  forall (T : Type) (P : tparam T) (o : obj),
    let demanded := parsing_error (uo_get P o) in
    (forall t, demanded = Ok t <-> uo_get P o = Some (Ok t))
    /\ (demanded = Err "missing parameter" <-> uo_get P o = None)
    /\ (demanded = Err "unable to parse parameter" <-> exists e, uo_get P o = Some (Err e)).
Proof. exact c02_required_pf. Qed.
Print Assumptions c02_required.

Example c02_required_witness :
  parsing_error (uo_get p_nonce [("nonce", JStr "x")]) = Ok "x"
  /\ parsing_error (uo_get p_nonce [("nonce", JInt 3)]) = Err "unable to parse parameter"
  /\ parsing_error (uo_get p_nonce []) = Err "missing parameter".
Proof. exact c02_required_ex. Qed.
