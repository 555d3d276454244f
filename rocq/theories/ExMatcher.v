(** The example wallet's credential matching:
    /repo/examples/wallet-conformance-adapter/{dcql/matcher,credentials/store,engine/types}.rs. *)
From Verif Require Import Base Json Formats Dcql.

(** [MockCredential], store.rs:7-22. *)
Record credential := mk_credential {
  mc_id : string;
  mc_format : designation;
  mc_vct : option string;
  mc_doctype : option string;
  mc_raw : string;
  mc_claims : list (string * json)
}.

(** [CredentialSelection], types.rs:6-34: a [HashMap] as a list with distinct keys. *)
Definition selection := list (string * list string).
Fixpoint sel_add (id raw : string) (s : selection) : selection :=
  match s with
  | [] => [(id, [raw])]
  | (k, l) :: r => if String.eqb k id then (k, l ++ [raw]) :: r else (k, l) :: sel_add id raw r
  end.

Section Matcher.
(** [str::to_lowercase] (Unicode tables) is left open. *)
Variable lower : string -> string.

(** [format_matches], store.rs:149-166. *)
Definition format_matches (cred query : designation) : bool :=
  designation_eqb cred query
  || match cred, query with OtherFormat a, OtherFormat b => String.eqb (lower a) (lower b) | _, _ => false end.

(** [find_by_format], store.rs:69-74, followed by [next()], matcher.rs:107. *)
Definition find_by_format (f : designation) (store : list credential) : option credential :=
  find (fun c => format_matches (mc_format c) f) store.
(** [find_by_format_and_vct] with [Some(vcts)], store.rs:76-96. *)
Definition find_by_vct (f : designation) (vcts : list string) (store : list credential) : option credential :=
  find (fun c => format_matches (mc_format c) f
                 && match mc_vct c with Some v => mem_str v vcts | None => false end) store.
(** [find_by_format_and_doctype] with [Some(dt)], store.rs:98-118. *)
Definition find_by_doctype (f : designation) (dt : string) (store : list credential) : option credential :=
  find (fun c => format_matches (mc_format c) f
                 && match mc_doctype c with Some d => String.eqb d dt | None => false end) store.
(** [find_by_format_and_claims], store.rs:120-135. *)
Definition find_by_claims (f : designation) (claims : list string) (store : list credential) : option credential :=
  find (fun c => format_matches (mc_format c) f
                 && forallb (fun x => mem_str x (map fst (mc_claims c))) claims) store.

(** [extract_required_claims], matcher.rs:119-140: every text element of every path, unless it looks like a
    namespace. A name that starts with "org." contains a dot, so the second test never decides. *)
Definition path_claims (p : list path_elem) : list string :=
  flat_map (fun e => match e with
                     | PeStr s => if has_char "." s || starts_with "org." s then [] else [s]
                     | _ => []
                     end) p.
Definition required_claims (q : cred_query) : list string :=
  match cq_claims q with
  | Some l => flat_map (fun c => path_claims (cl_path c)) l
  | None => []
  end.

(** The type and document type restrictions, matcher.rs:68-84. *)
Definition vct_values (q : cred_query) : option (list string) :=
  match obj_get "vct_values" (cq_meta q) with
  | Some (JArr l) => Some (flat_map (fun v => match as_str v with Some s => [s] | None => [] end) l)
  | _ => None
  end.
Definition doctype_value (q : cred_query) : option string :=
  match obj_get "doctype_value" (cq_meta q) with Some v => as_str v | None => None end.

(** [match_credential_query], matcher.rs:61-117. *)
Definition match_credential (store : list credential) (q : cred_query) : res credential :=
  ok_or (match vct_values q with
         | Some vcts => find_by_vct (cq_format q) vcts store
         | None => match doctype_value q with
                   | Some dt => find_by_doctype (cq_format q) dt store
                   | None => match required_claims q with
                             | [] => find_by_format (cq_format q) store
                             | cs => find_by_claims (cq_format q) cs store
                             end
                   end
         end) "no matching credential".

(** [match_query], matcher.rs:21-59. The credential sets are only logged (matcher.rs:33-50), so they do not
    appear. *)
Fixpoint match_all (store : list credential) (qs : list cred_query) (s : selection) : res selection :=
  match qs with
  | [] => Ok s
  | q :: r => let? c := match_credential store q in match_all store r (sel_add (cq_id q) (mc_raw c) s)
  end.
Definition match_query (store : list credential) (q : dcql) : res selection :=
  let? s := match_all store (dq_credentials q) [] in
  match s with [] => Err "no credentials matched" | _ => Ok s end.
End Matcher.
