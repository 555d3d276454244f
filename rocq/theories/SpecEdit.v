(** Specification vocabulary for edited DCQL queries. *)
From Verif Require Import Base Json Object Formats Dcql DcqlEdit.

(** The value of a field after edits to it: what was set last, with the changes since. *)
Fixpoint written {A} (v : A) (l : list (edit A)) : A :=
  match l with
  | [] => v
  | SetTo w :: r => written w r
  | Change f :: r => written (f v) r
  end.
(** Which calls on a cred_query are edits of which field. *)
Definition cred_id_edits (l : list cred_call) : list (edit string) := flat_map (fun e => match e with Cred_id x => [x] | _ => [] end) l.
Definition cred_format_edits (l : list cred_call) : list (edit designation) := flat_map (fun e => match e with Cred_format x => [x] | _ => [] end) l.
Definition cred_meta_edits (l : list cred_call) : list (edit obj) := flat_map (fun e => match e with Cred_meta x => [x] | _ => [] end) l.
Definition cred_claims_edits (l : list cred_call) : list (edit (option (list claims_query))) := flat_map (fun e => match e with Cred_claims x => [x] | _ => [] end) l.
Definition cred_claim_sets_edits (l : list cred_call) : list (edit (option (list (list string)))) := flat_map (fun e => match e with Cred_claim_sets x => [x] | _ => [] end) l.
Definition cred_trusted_authorities_edits (l : list cred_call) : list (edit (option (list authorities_query))) := flat_map (fun e => match e with Cred_trusted_authorities x => [x] | _ => [] end) l.
Definition cred_holder_binding_edits (l : list cred_call) : list (edit (option bool)) := flat_map (fun e => match e with Cred_holder_binding x => [SetTo x] | _ => [] end) l.
Definition cred_multiple_edits (l : list cred_call) : list (edit (option bool)) := flat_map (fun e => match e with Cred_multiple x => [SetTo x] | _ => [] end) l.
(** Which calls on a authorities_query are edits of which field. *)
Definition auths_type_edits (l : list auths_call) : list (edit authority_type) := flat_map (fun e => match e with Auths_type x => [SetTo x] | _ => [] end) l.
Definition auths_values_edits (l : list auths_call) : list (edit (list string)) := flat_map (fun e => match e with Auths_values x => [x] | _ => [] end) l.
(** Which calls on a set_query_ are edits of which field. *)
Definition set_options_edits (l : list set_call) : list (edit (list (list string))) := flat_map (fun e => match e with Set_options x => [x] | _ => [] end) l.
Definition set_required_edits (l : list set_call) : list (edit (option bool)) := flat_map (fun e => match e with Set_required x => [x] | _ => [] end) l.
(** Which calls on a claims_query are edits of which field. *)
Definition claim_id_edits (l : list claim_call) : list (edit (option string)) := flat_map (fun e => match e with Claim_id x => [x] | _ => [] end) l.
Definition claim_path_edits (l : list claim_call) : list (edit (list path_elem)) := flat_map (fun e => match e with Claim_path x => [x] | _ => [] end) l.
Definition claim_values_edits (l : list claim_call) : list (edit (option (list claim_value))) := flat_map (fun e => match e with Claim_values x => [x] | _ => [] end) l.
Definition claim_intent_edits (l : list claim_call) : list (edit (option bool)) := flat_map (fun e => match e with Claim_intent x => [x] | _ => [] end) l.
(** Which calls on a dcql are edits of which field. *)
Definition query_credentials_edits (l : list query_call) : list (edit (list cred_query)) := flat_map (fun e => match e with Query_credentials x => [x] | _ => [] end) l.
Definition query_sets_edits (l : list query_call) : list (edit (option (list set_query_))) := flat_map (fun e => match e with Query_sets x => [x] | _ => [] end) l.

(** The last entry for an identifier. *)
Definition last_given {A} (id : string) (v : A) (l : list (string * A)) : Prop :=
  exists before after, l = before ++ (id, v) :: after /\ ~ In id (map fst after).
