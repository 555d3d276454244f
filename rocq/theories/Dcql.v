(** /repo/src/utils.rs ([NonEmptyVec]) and /repo/src/core/dcql_query.rs. *)
From Verif Require Import Base Json Serde Object Formats.

(* ------------------------------------------------------------ NonEmptyVec *)
(** [NonEmptyVec<T>(Vec<T>)], utils.rs:5-7: a list; non-emptiness is only maintained by the
    operations. *)
Definition ne_new {A} (x : A) : list A := [x].                       (** utils.rs:10-12 *)
Definition ne_try_from {A} (l : list A) : res (list A) :=             (** utils.rs:27-36 *)
  match l with [] => Err "cannot create a NonEmptyVec from an empty Vec" | _ => Ok l end.
Definition ne_maybe_new {A} (l : list A) : option (list A) :=         (** utils.rs:14-16 *)
  match ne_try_from l with Ok v => Some v | Err _ => None end.
Definition ne_push {A} (l : list A) (x : A) : list A := l ++ [x].     (** utils.rs:18-20 *)
Definition ne_into_inner {A} (l : list A) : list A := l.              (** utils.rs:22-24,38-42 *)
Definition ne_default {A} : list A := [].                             (** derived, utils.rs:5 *)
(** [Deserialize] via [try_from = "Vec<T>"], utils.rs:6; [Serialize], utils.rs:76-83. *)
Definition de_ne {A} (f : json -> res A) (j : json) : res (list A) :=
  let? l := de_list f j in ne_try_from l.
Definition ser_ne {A} (f : A -> json) (l : list A) : json := JArr (map f l).

(* ------------------------------------------------------------ claims *)
(** [DcqlCredentialClaimsQueryValue], dcql_query.rs:472-478 (untagged; [isize] is 64-bit). *)
Inductive claim_value := CvStr (s : string) | CvInt (z : Z) | CvBool (b : bool).
Definition cv_to_json (v : claim_value) : json :=
  match v with CvStr s => JStr s | CvInt z => JInt z | CvBool b => JBool b end.
Definition cv_of_json (j : json) : res claim_value :=
  match j with
  | JStr s => Ok (CvStr s)
  | JInt z => if ((i64_min <=? z) && (z <=? i64_max))%Z then Ok (CvInt z) else Err "no-variant"
  | JBool b => Ok (CvBool b)
  | _ => Err "no-variant"
  end.

(** [DcqlCredentialClaimsQueryPath], dcql_query.rs:480-486 (untagged; [usize] is 64-bit). *)
Inductive path_elem := PeStr (s : string) | PeNull | PeInt (z : Z).
Definition pe_to_json (v : path_elem) : json :=
  match v with PeStr s => JStr s | PeNull => JNull | PeInt z => JInt z end.
Definition pe_of_json (j : json) : res path_elem :=
  match j with
  | JStr s => Ok (PeStr s)
  | JNull => Ok PeNull
  | JInt z => if ((0 <=? z) && (z <=? u64_max))%Z then Ok (PeInt z) else Err "no-variant"
  | _ => Err "no-variant"
  end.

(** [DcqlCredentialClaimsQuery], dcql_query.rs:353-380. *)
Record claims_query := mk_claims {
  cl_id : option string;
  cl_path : list path_elem;
  cl_values : option (list claim_value);
  cl_intent : option bool
}.
Definition claims_new (p : list path_elem) : claims_query := mk_claims None p None None.
Definition claims_to_json (c : claims_query) : json :=
  ser_struct [("id", option_map JStr (cl_id c));
              ("path", Some (ser_ne pe_to_json (cl_path c)));
              ("values", option_map (ser_ne cv_to_json) (cl_values c));
              ("intent_to_retain", option_map JBool (cl_intent c))].
Definition claims_of_json (j : json) : res claims_query :=
  let? fs := de_fields ["id"; "path"; "values"; "intent_to_retain"] j in
  let? i := f_opt de_str (nth_fld 0 fs) in
  let? p := f_req (de_ne pe_of_json) (nth_fld 1 fs) in
  let? v := f_opt (de_ne cv_of_json) (nth_fld 2 fs) in
  let? r := f_opt de_bool (nth_fld 3 fs) in
  Ok (mk_claims i p v r).

(** [namespace], dcql_query.rs:435-440. *)
Definition namespace (c : claims_query) : option string :=
  match cl_path c with PeStr s :: _ => Some s | _ => None end.
(** [element_identifier], dcql_query.rs:447-452. *)
Definition element_identifier (c : claims_query) : option string :=
  match nth_error (cl_path c) 1 with Some (PeStr s) => Some s | _ => None end.
(** [claim_name], dcql_query.rs:461-469. *)
Fixpoint first_str (l : list path_elem) : option string :=
  match l with
  | [] => None
  | PeStr s :: _ => Some s
  | _ :: r => first_str r
  end.
Definition claim_name (c : claims_query) : option string := first_str (rev (cl_path c)).

(* ------------------------------------------------------------ trusted authorities *)
(** [TrustedAuthorityType], dcql_query.rs:283-296. *)
Inductive authority_type := AtAki | AtEtsiTl | AtOpenidFederation | AtOther (s : string).
Definition at_to_json (a : authority_type) : json :=
  JStr (match a with
        | AtAki => "aki" | AtEtsiTl => "etsi_tl" | AtOpenidFederation => "openid_federation"
        | AtOther s => s
        end).
Definition at_tag (s : string) : option authority_type :=
  if String.eqb s "aki" then Some AtAki
  else if String.eqb s "etsi_tl" then Some AtEtsiTl
  else if String.eqb s "openid_federation" then Some AtOpenidFederation
  else None.
(** A unit variant may also be written [{"aki": null}]. *)
Definition at_of_json (j : json) : res authority_type :=
  match j with
  | JStr s => Ok (match at_tag s with Some a => a | None => AtOther s end)
  | JObj [(k, JNull)] => ok_or (at_tag k) "no-variant"
  | _ => Err "no-variant"
  end.

(** [TrustedAuthoritiesQuery], dcql_query.rs:239-258. *)
Record authorities_query := mk_auths { ta_type : authority_type; ta_values : list string }.
Definition auths_to_json (a : authorities_query) : json :=
  ser_struct [("type", Some (at_to_json (ta_type a))); ("values", Some (ser_ne JStr (ta_values a)))].
Definition auths_of_json (j : json) : res authorities_query :=
  let? fs := de_fields ["type"; "values"] j in
  let? t := f_req at_of_json (nth_fld 0 fs) in
  let? v := f_req (de_ne de_str) (nth_fld 1 fs) in
  Ok (mk_auths t v).

(* ------------------------------------------------------------ credential sets *)
(** [DcqlCredentialSetQuery], dcql_query.rs:300-349. *)
Record set_query_ := mk_set { cs_options : list (list string); cs_required : option bool }.
Definition sets_new (o : list (list string)) : set_query_ := mk_set o None.
Definition is_required (s : set_query_) : bool :=                      (** dcql_query.rs:333-335 *)
  match cs_required s with Some b => b | None => true end.
Definition sets_to_json (s : set_query_) : json :=
  ser_struct [("options", Some (ser_ne jstrs (cs_options s)));
              ("required", option_map JBool (cs_required s))].
Definition sets_of_json (j : json) : res set_query_ :=
  let? fs := de_fields ["options"; "required"] j in
  let? o := f_req (de_ne (de_list de_str)) (nth_fld 0 fs) in
  let? r := f_opt de_bool (nth_fld 1 fs) in
  Ok (mk_set o r).

(* ------------------------------------------------------------ credential queries *)
(** [DcqlCredentialQuery], dcql_query.rs:72-127. *)
Record cred_query := mk_cred {
  cq_id : string;
  cq_format : designation;
  cq_meta : obj;
  cq_claims : option (list claims_query);
  cq_claim_sets : option (list (list string));
  cq_auths : option (list authorities_query);
  cq_holder_binding : option bool;
  cq_multiple : option bool
}.
Definition cred_new (id : string) (f : designation) : cred_query :=
  mk_cred id f [] None None None None None.
Definition holder_binding (c : cred_query) : bool :=                   (** dcql_query.rs:206-208 *)
  match cq_holder_binding c with Some b => b | None => true end.
Definition multiple (c : cred_query) : bool :=                         (** dcql_query.rs:223-225 *)
  match cq_multiple c with Some b => b | None => false end.
Definition cred_to_json (c : cred_query) : json :=
  ser_struct [("id", Some (JStr (cq_id c)));
              ("format", Some (designation_to_json (cq_format c)));
              ("meta", Some (JObj (cq_meta c)));
              ("claims", option_map (ser_ne claims_to_json) (cq_claims c));
              ("claim_sets", option_map (ser_ne jstrs) (cq_claim_sets c));
              ("trusted_authorities", option_map (ser_ne auths_to_json) (cq_auths c));
              ("require_cryptographic_holder_binding", option_map JBool (cq_holder_binding c));
              ("multiple", option_map JBool (cq_multiple c))].
Definition cred_of_json (j : json) : res cred_query :=
  let? fs := de_fields ["id"; "format"; "meta"; "claims"; "claim_sets"; "trusted_authorities";
                        "require_cryptographic_holder_binding"; "multiple"] j in
  let? i := f_req de_str (nth_fld 0 fs) in
  let? f := f_req designation_of_json (nth_fld 1 fs) in
  let? m := f_dflt [] de_obj (nth_fld 2 fs) in
  let? c := f_opt (de_ne claims_of_json) (nth_fld 3 fs) in
  let? s := f_opt (de_ne (de_list de_str)) (nth_fld 4 fs) in
  let? a := f_opt (de_ne auths_of_json) (nth_fld 5 fs) in
  let? h := f_opt de_bool (nth_fld 6 fs) in
  let? u := f_opt de_bool (nth_fld 7 fs) in
  Ok (mk_cred i f m c s a h u).

(** [DcqlQuery], dcql_query.rs:9-68. [Json::from] unwraps [to_value], which cannot fail here. *)
Record dcql := mk_dcql { dq_credentials : list cred_query; dq_sets : option (list set_query_) }.
Definition dcql_new (c : list cred_query) : dcql := mk_dcql c None.
Definition dcql_to_json (q : dcql) : json :=
  ser_struct [("credentials", Some (ser_ne cred_to_json (dq_credentials q)));
              ("credential_sets", option_map (ser_ne sets_to_json) (dq_sets q))].
Definition dcql_of_json (j : json) : res dcql :=
  let? fs := de_fields ["credentials"; "credential_sets"] j in
  let? c := f_req (de_ne cred_of_json) (nth_fld 0 fs) in
  let? s := f_opt (de_ne sets_of_json) (nth_fld 1 fs) in
  Ok (mk_dcql c s).
Definition p_dcql : tparam dcql := mk_tparam "dcql_query" dcql_of_json (fun q => Ok (dcql_to_json q)).
