(** JSON values: [serde_json::Value] and [serde_json::Map] as used by the whole library. *)
From Verif Require Import Base Utf8.

(** [serde_json::Value].  Numbers that [serde_json] stores as [i64]/[u64] are [JInt]; all other
    numbers are kept as the lexeme they were written with ([JFloat]) — a simplification: the
    conversion of a lexeme to [f64] and back is not modelled (C120 is about any such conversion).  An object is an association list;
    [serde_json::Map] (a [BTreeMap], no [preserve_order] in the library build, /repo/Cargo.toml:32)
    is an association list strictly sorted by key (see [jsorted]).  The examples are built with
    [preserve_order] (/repo/Cargo.toml:59), modelled in JsonOrder.v (C119); elsewhere the sorted order is a simplification. *)
Inductive json : Type :=
| JNull
| JBool (b : bool)
| JInt (z : Z)
| JFloat (lexeme : string)
| JStr (s : string)
| JArr (l : list json)
| JObj (m : list (string * json)).

Definition obj := list (string * json).

(** [Map::get]. *)
Fixpoint obj_get (k : string) (m : obj) : option json :=
  match m with
  | [] => None
  | (k', v) :: r => if String.eqb k k' then Some v else obj_get k r
  end.

(** [Map::insert] (without the returned previous value, which is [obj_get]). *)
Fixpoint obj_insert (k : string) (v : json) (m : obj) : obj :=
  match m with
  | [] => [(k, v)]
  | (k', v') :: r =>
      match str_cmp k k' with
      | Lt => (k, v) :: m
      | Eq => (k, v) :: r
      | Gt => (k', v') :: obj_insert k v r
      end
  end.

(** [Map::remove]. *)
Fixpoint obj_remove (k : string) (m : obj) : obj :=
  match m with
  | [] => []
  | (k', v) :: r => if String.eqb k k' then r else (k', v) :: obj_remove k r
  end.

(** Building a [Map] from entries in order of appearance: the last entry of a key wins. *)
Definition obj_of_list (l : list (string * json)) : obj :=
  fold_left (fun m kv => obj_insert (fst kv) (snd kv) m) l [].

(** Strictly increasing keys: the representation invariant of [BTreeMap]. *)
Fixpoint keys_sorted (m : obj) : bool :=
  match m with
  | [] => true
  | (k, _) :: r =>
      match r with
      | [] => true
      | (k', _) :: _ => match str_cmp k k' with Lt => keys_sorted r | _ => false end
      end
  end.

(** [as_str], [as_object], [as_array], [as_bool] of [serde_json::Value]. *)
Definition as_str (j : json) : option string := match j with JStr s => Some s | _ => None end.
Definition as_obj (j : json) : option obj := match j with JObj m => Some m | _ => None end.
Definition as_arr (j : json) : option (list json) := match j with JArr l => Some l | _ => None end.

(** Ranges of integers representable in [serde_json::Number] without a float. *)
Definition i64_min : Z := (- 9223372036854775808)%Z.
Definition i64_max : Z := 9223372036854775807%Z.
Definition u64_max : Z := 18446744073709551615%Z.
Definition int_ok (z : Z) : bool := (i64_min <=? z)%Z && (z <=? u64_max)%Z.

(** Nesting depth: scalars 0, containers one more than their deepest element. *)
Fixpoint jdepth (j : json) : nat :=
  match j with
  | JArr l => S (fold_right Nat.max 0 (map jdepth l))
  | JObj m => S (fold_right Nat.max 0 (map (fun kv => jdepth (snd kv)) m))
  | _ => 0
  end.

(** Every object in the value is a proper map. *)
Fixpoint jsorted (j : json) : bool :=
  match j with
  | JArr l => forallb jsorted l
  | JObj m => keys_sorted m && forallb (fun kv => jsorted (snd kv)) m
  | _ => true
  end.

(** Converting parsed text to [Value]: objects become maps, last duplicate wins. *)
Fixpoint normalize (j : json) : json :=
  match j with
  | JArr l => JArr (map normalize l)
  | JObj m => JObj (obj_of_list (map (fun kv => (fst kv, normalize (snd kv))) m))
  | _ => j
  end.
