(** The parts of serde / serde_json's [from_value] that the library's derived and hand-written
    deserialisers rely on (external crates). *)
From Verif Require Import Base Json.

(** [from_value::<String>], [::<bool>], [::<Map>], [::<Vec<T>>]. *)
Definition de_str (j : json) : res string := ok_or (as_str j) "expected-string".
Definition de_bool (j : json) : res bool :=
  match j with JBool b => Ok b | _ => Err "expected-bool" end.
Definition de_obj (j : json) : res obj := ok_or (as_obj j) "expected-object".
Definition de_json (j : json) : res json := Ok j.
Definition de_list {A} (f : json -> res A) (j : json) : res (list A) :=
  match j with JArr l => mapM f l | _ => Err "expected-array" end.

(** One field of a derived struct: by name ([FVal]/[FMissing]) or, when the struct is given as an
    array, by position ([FVal]/[FShort]). *)
Inductive fld := FVal (j : json) | FMissing | FShort.

Fixpoint arr_fields (names : list string) (l : list json) : list fld :=
  match names with
  | [] => []
  | _ :: ns => match l with [] => FShort :: arr_fields ns [] | v :: r => FVal v :: arr_fields ns r end
  end.

(** Fields of a derived struct. Unknown members are ignored; an array longer than the number of
    fields is an error ([serde_json::Value]'s [deserialize_struct]). *)
Definition de_fields (names : list string) (j : json) : res (list fld) :=
  match j with
  | JObj m => Ok (map (fun k => match obj_get k m with Some v => FVal v | None => FMissing end) names)
  | JArr l => if Nat.leb (length l) (length names) then Ok (arr_fields names l) else Err "invalid-length"
  | _ => Err "expected-struct"
  end.

Definition nth_fld (i : nat) (l : list fld) : fld := nth i l FMissing.

(** A required field, an [Option] field, a field with [#[serde(default)]], and an [Option] field
    with [#[serde(default)]]. *)
Definition f_req {A} (f : json -> res A) (x : fld) : res A :=
  match x with FVal v => f v | _ => Err "missing-field" end.
Definition de_opt {A} (f : json -> res A) (j : json) : res (option A) :=
  match j with JNull => Ok None | _ => rmap Some (f j) end.
Definition f_opt {A} (f : json -> res A) (x : fld) : res (option A) :=
  match x with FVal v => de_opt f v | FMissing => Ok None | FShort => Err "invalid-length" end.
Definition f_dflt {A} (d : A) (f : json -> res A) (x : fld) : res A :=
  match x with FVal v => f v | _ => Ok d end.
Definition f_opt_dflt {A} (f : json -> res A) (x : fld) : res (option A) :=
  match x with FVal v => de_opt f v | _ => Ok None end.

(** Building an object from members in declaration order; [None] members are skipped
    ([skip_serializing_if = "Option::is_none"]). *)
Definition ser_struct (l : list (string * option json)) : json :=
  JObj (obj_of_list
    (flat_map (fun kv => match snd kv with Some v => [(fst kv, v)] | None => [] end) l)).

Definition jstrs (l : list string) : json := JArr (map JStr l).
