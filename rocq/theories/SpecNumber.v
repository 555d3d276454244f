(** Specification vocabulary for the non-integer numbers of JSON values. *)
From Verif Require Import Base Json JsonText Response SpecOrder.

(** A value whose numbers are all integers that fit. *)
Fixpoint integral (j : json) : Prop :=
  match j with
  | JFloat _ => False
  | JArr l => fold_right (fun x P => integral x /\ P) True l
  | JObj m => fold_right (fun kv P => integral (snd kv) /\ P) True m
  | _ => True
  end.
(** Presented items that are the same but for the numbers. *)
Definition like_item (R : json -> json -> Prop) (i i' : vp_item) : Prop :=
  match i, i' with
  | VpString s, VpString s' => s = s'
  | VpObject m, VpObject m' => R (JObj m) (JObj m')
  | _, _ => False
  end.
Definition like_token (R : json -> json -> Prop) (t t' : vp_token) : Prop :=
  forall id, both (Forall2 (like_item R)) (vp_get id t) (vp_get id t').
