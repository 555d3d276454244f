(** [serde_json::Map] with the feature [preserve_order] (/repo/Cargo.toml:59), as in the examples and in every program that switches it
    on: an [IndexMap] (external), i.e. a list with distinct names in order of insertion.  [get] is [obj_get]. *)
From Verif Require Import Base Json JsonText.

(** [insert]: a present name keeps its place, a new one goes to the end. *)
Fixpoint io_insert (k : string) (v : json) (m : obj) : obj :=
  match m with
  | [] => [(k, v)]
  | (k', v') :: r => if String.eqb k k' then (k', v) :: r else (k', v') :: io_insert k v r
  end.
(** [remove] is [swap_remove]: the last entry takes the place of the removed one. *)
Fixpoint io_remove (k : string) (m : obj) : obj :=
  match m with
  | [] => []
  | (k', v) :: r =>
      if String.eqb k k' then match r with [] => [] | _ => last r (k', v) :: removelast r end
      else (k', v) :: io_remove k r
  end.
Definition io_of_list (l : list (string * json)) : obj :=
  fold_left (fun m kv => io_insert (fst kv) (snd kv) m) l [].
(** [from_str::<Value>]: as [json_of_text], with these maps. *)
Fixpoint io_normalize (j : json) : json :=
  match j with
  | JArr l => JArr (map io_normalize l)
  | JObj m => JObj (io_of_list (map (fun kv => (fst kv, io_normalize (snd kv))) m))
  | _ => j
  end.
Definition io_of_text (s : string) : option json := option_map io_normalize (parse_raw s).
