(** /repo/src/core/object/mod.rs: untyped objects and typed parameters. *)
From Verif Require Import Base Json.

(** [trait TypedParameter], object/mod.rs:13-17: the key, [TryFrom<Json>] and [TryInto<Json>]. *)
Record tparam (T : Type) := mk_tparam {
  tp_key : string;
  tp_of : json -> res T;
  tp_to : T -> res json
}.
Arguments mk_tparam {T}.
Arguments tp_key {T}.
Arguments tp_of {T}.
Arguments tp_to {T}.

(** [UntypedObject::get], object/mod.rs:36-38. *)
Definition uo_get {T} (P : tparam T) (o : obj) : option (res T) :=
  match obj_get (tp_key P) o with Some v => Some (tp_of P v) | None => None end.

(** [UntypedObject::get_or_default], object/mod.rs:23-31. *)
Definition uo_get_or_default {T} (P : tparam T) (dflt : T) (o : obj) : res T :=
  match obj_get (tp_key P) o with Some v => tp_of P v | None => Ok dflt end.

(** [UntypedObject::remove], object/mod.rs:41-43: the new object and the removed value. *)
Definition uo_remove {T} (P : tparam T) (o : obj) : obj * option (res T) :=
  match obj_get (tp_key P) o with
  | Some v => (obj_remove (tp_key P) o, Some (tp_of P v))
  | None => (o, None)
  end.

(** [UntypedObject::insert], object/mod.rs:51-56: the new object and the replaced value. *)
Definition uo_insert {T} (P : tparam T) (t : T) (o : obj) : obj * option (res T) :=
  match tp_to P t with
  | Err _ => (o, Some (Err "failed to parse typed parameter"))
  | Ok v =>
      (obj_insert (tp_key P) v o,
       match obj_get (tp_key P) o with Some old => Some (tp_of P old) | None => None end)
  end.

(** [insert] used as a statement, the returned value being dropped. *)
Definition uo_put {T} (P : tparam T) (t : T) (o : obj) : obj := fst (uo_insert P t o).

(** [ParsingErrorContext::parsing_error], object/mod.rs:65-86: absent and unparsable are both
    errors. *)
Definition parsing_error {T} (x : option (res T)) : res T :=
  match x with
  | Some (Ok t) => Ok t
  | Some (Err _) => Err "unable to parse parameter"
  | None => Err "missing parameter"
  end.
