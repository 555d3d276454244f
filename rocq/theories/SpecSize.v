(** How large things are, in bytes of text plus one for each value. *)
From Verif Require Import Base Json Response.

Fixpoint sum (l : list nat) : nat := match l with [] => 0 | n :: r => n + sum r end.
Fixpoint value_size (j : json) : nat :=
  match j with
  | JNull | JBool _ | JInt _ => 1
  | JFloat digits => String.length digits
  | JStr s => 1 + String.length s
  | JArr l => 1 + sum (map value_size l)
  | JObj m => 1 + sum (map (fun kv => String.length (fst kv) + value_size (snd kv)) m)
  end.
Definition fields_size (l : list (string * string)) : nat := sum (map (fun kv => String.length (fst kv) + String.length (snd kv)) l).
Definition presentation_size (i : vp_item) : nat := match i with VpString s => 1 + String.length s | VpObject m => value_size (JObj m) end.
Definition token_size (t : vp_token) : nat := sum (map (fun e => String.length (fst e) + sum (map presentation_size (snd e))) t).
Definition text_size (s : option string) : nat := match s with Some s => String.length s | None => 0 end.
Definition response_size (r : auth_response) : nat :=
  match r with
  | Unencoded u => token_size (ur_vp_token u) + text_size (ur_state u)
  | Jwt s => String.length s
  end.
