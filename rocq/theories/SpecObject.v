(** Specification of untyped objects as finite maps from keys to JSON values. *)
From Verif Require Import Base Json Serde Url Object Formats Params Metadata.

(** Operations of the API on one object. *)
Inductive obj_op : Type :=
| OpInsert {T : Type} (P : tparam T) (t : T)
| OpRemove {T : Type} (P : tparam T).

(** What an operation does to a map. *)
Definition spec_op (m : string -> option json) (op : obj_op) : string -> option json :=
  match op with
  | OpInsert P t => match tp_to P t with
                    | Ok v => fun k => if String.eqb k (tp_key P) then Some v else m k
                    | Err _ => m
                    end
  | OpRemove P => fun k => if String.eqb k (tp_key P) then None else m k
  end.

(** What the library does. *)
Definition run_op (o : obj) (op : obj_op) : obj :=
  match op with
  | OpInsert P t => fst (uo_insert P t o)
  | OpRemove P => fst (uo_remove P o)
  end.

(** A typed parameter whose values survive conversion to JSON and back. *)
Definition param_rt {T} (P : tparam T) (ok : T -> Prop) : Prop :=
  forall t, ok t -> exists v, tp_to P t = Ok v /\ tp_of P v = Ok t.

(** ASCII letters and digits. *)
Definition alphanumeric (c : ascii) : Prop :=
  (48 <= byte c <= 57 \/ 65 <= byte c <= 90 \/ 97 <= byte c <= 122)%N.

(** The list of text values a wallet's metadata give for a key, with what an absent key means. *)
Definition supported (k : string) (dflt : list string) (w : wallet_metadata) : res (list string) :=
  match obj_get k (wm_obj w) with
  | None => Ok dflt
  | Some (JArr l) => mapM de_str l
  | Some _ => Err "not a list"
  end.
