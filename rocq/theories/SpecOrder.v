(** Specification vocabulary for the order of the members of JSON objects. *)
From Verif Require Import Base Json JsonText Url Object Formats Params Metadata Dcql Request JsonOrder.

(** The same value, but for the order of the members of its objects and for the non-integer numbers, which only have to be in the
    given relation. *)
Inductive like (F : string -> string -> Prop) : json -> json -> Prop :=
| like_null : like F JNull JNull
| like_bool : forall b, like F (JBool b) (JBool b)
| like_int : forall z, like F (JInt z) (JInt z)
| like_float : forall l l', F l l' -> like F (JFloat l) (JFloat l')
| like_str : forall s, like F (JStr s) (JStr s)
| like_arr : forall l l', Forall2 (like F) l l' -> like F (JArr l) (JArr l')
| like_obj : forall m m',
    NoDup (map fst m) -> NoDup (map fst m') ->
    (forall k v, In (k, v) m -> exists v', In (k, v') m' /\ like F v v') ->
    (forall k v', In (k, v') m' -> exists v, In (k, v) m /\ like F v v') ->
    like F (JObj m) (JObj m').
(** The same value, but for the order of the members of its objects. *)
Notation alike := (like eq).
(** The same value, but also for what its non-integer numbers are. *)
Notation roughly := (like (fun _ _ => True)).

(** A value that can be written: its text reads as the value. *)
Definition writable (j : json) : Prop := parse_raw (jprint j) = Some j.

(** The two results agree: both fail, with the same error, or both succeed with related values. *)
Definition agree {A B} (R : A -> B -> Prop) (x : res A) (y : res B) : Prop :=
  match x, y with
  | Ok a, Ok b => R a b
  | Err e, Err f => e = f
  | _, _ => False
  end.
(** Both absent, or both present and related. *)
Definition both {A B} (R : A -> B -> Prop) (x : option A) (y : option B) : Prop :=
  match x, y with
  | Some a, Some b => R a b
  | None, None => True
  | _, _ => False
  end.

(** Calls on an object, and what they do with either kind of map. *)
Inductive map_call := MInsert (k : string) (v : json) | MRemove (k : string).
Definition sorted_call (m : obj) (c : map_call) : obj :=
  match c with MInsert k v => obj_insert k v m | MRemove k => obj_remove k m end.
Definition ordered_call (m : obj) (c : map_call) : obj :=
  match c with MInsert k v => io_insert k v m | MRemove k => io_remove k m end.
(** The same call, with the same value but for the order inside it. *)
Definition same_call (c c' : map_call) : Prop :=
  match c, c' with
  | MInsert k v, MInsert k' v' => k = k' /\ alike v v'
  | MRemove k, MRemove k' => k = k'
  | _, _ => False
  end.

(** Request objects whose JSON is related, and that are otherwise equal. *)
Definition like_request (R : json -> json -> Prop) (a a' : aro) : Prop :=
  R (JObj (ro_inner a)) (JObj (ro_inner a')) /\ ro_client_id a = ro_client_id a' /\ ro_scheme a = ro_scheme a'
  /\ ro_mode a = ro_mode a' /\ ro_type a = ro_type a' /\ ro_return a = ro_return a' /\ ro_nonce a = ro_nonce a'.
(** Queries whose JSON is related, and that are otherwise equal (of [meta]). *)
Definition like_cred (R : json -> json -> Prop) (c c' : cred_query) : Prop :=
  R (JObj (cq_meta c)) (JObj (cq_meta c')) /\ cq_id c = cq_id c' /\ cq_format c = cq_format c' /\ cq_claims c = cq_claims c'
  /\ cq_claim_sets c = cq_claim_sets c' /\ cq_auths c = cq_auths c' /\ cq_holder_binding c = cq_holder_binding c' /\ cq_multiple c = cq_multiple c'.
Definition like_query (R : json -> json -> Prop) (q q' : dcql) : Prop :=
  Forall2 (like_cred R) (dq_credentials q) (dq_credentials q') /\ dq_sets q = dq_sets q'.
(** Format maps with the same formats and like payloads. *)
Definition like_payload (R : json -> json -> Prop) (p p' : payload) : Prop :=
  match p, p' with
  | AlgValues l, AlgValues l' => l = l'
  | ProofTypeValues l, ProofTypeValues l' => l = l'
  | OtherPayload j, OtherPayload j' => R j j'
  | _, _ => False
  end.
Definition like_formats (R : json -> json -> Prop) (m m' : format_map) : Prop := forall d, both (like_payload R) (fm_get d m) (fm_get d m').
Definition like_metadata (R : json -> json -> Prop) (w w' : wallet_metadata) : Prop :=
  R (JObj (wm_obj w)) (JObj (wm_obj w')) /\ wm_endpoint w = wm_endpoint w' /\ like_formats R (wm_formats w) (wm_formats w').
(** Both succeed, with related values, or both fail (an error names the first bad member met). *)
Definition decides {A B} (R : A -> B -> Prop) (x : res A) (y : res B) : Prop :=
  match x, y with Ok a, Ok b => R a b | Err _, Err _ => True | _, _ => False end.
