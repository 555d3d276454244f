(** What a form says, whichever way it is written. *)
From Verif Require Import Base UrlEncoded Url Request ExWallet ExHttp SpecEncodings SpecHttp.

(** The values of the fields with this name, in the order they have in the form. *)
Fixpoint given (name : string) (fields : list (string * string)) : list string :=
  match fields with
  | [] => []
  | (k, v) :: rest => if string_dec k name then v :: given name rest else given name rest
  end.
(** Two texts with the same values for a name: however the characters are escaped, wherever the fields stand among the others, and whatever else
    the forms contain. *)
Definition same_for (name s s' : string) : Prop :=
  forall l l', form_text s l -> form_text s' l' -> given name l = given name l'.
(** The same for all names of a list, and for all names there are. *)
Definition same_for_all (names : list string) (s s' : string) : Prop := forall name, In name names -> same_for name s s'.
Definition same_form (s s' : string) : Prop := forall name, same_for name s s'.

(** A query, the missing one being the empty one. *)
Definition query_text (q : option string) : string := match q with Some s => s | None => "" end.
(** The parameters of a request as fields. *)
Definition fields_of (p : params) : list (string * string) :=
  flat_map (fun kf => match snd kf p with Some v => [(fst kf, v)] | None => [] end) parameters.
(** The texts in it are UTF-8, as Rust's are. *)
Definition texts (p : params) : Prop := forall k f v, In (k, f) parameters -> f p = Some v -> Utf8.utf8_valid v = true.
