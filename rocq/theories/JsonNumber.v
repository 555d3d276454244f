(** The numbers of [serde_json] without its feature [arbitrary_precision] (/repo/Cargo.toml:32): a number that is not an [i64] or a [u64]
    becomes an [f64] when it is read, and is written as that [f64]; one out of range is an error (external).  [conv] is what becomes of
    the text of such a number, [None] if it is refused: an arbitrary function. *)
From Verif Require Import Base Json JsonText.

Fixpoint to_floats (conv : string -> option string) (j : json) : option json :=
  match j with
  | JFloat l => option_map JFloat (conv l)
  | JArr l =>
      option_map JArr
        (fold_right (fun x r => match to_floats conv x, r with Some y, Some ys => Some (y :: ys) | _, _ => None end) (Some []) l)
  | JObj m =>
      option_map JObj
        (fold_right (fun kv r => match to_floats conv (snd kv), r with Some y, Some ys => Some ((fst kv, y) :: ys) | _, _ => None end)
           (Some []) m)
  | _ => Some j
  end.
(** [from_str::<Value>]: as [json_of_text], with these numbers. *)
Definition float_of_text (conv : string -> option string) (s : string) : option json :=
  match parse_raw s with
  | Some j => option_map normalize (to_floats conv j)
  | None => None
  end.
