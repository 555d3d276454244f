(** [Url::join] (crate url 2, external), as the URL standard describes it, for a base of one of the special schemes.
    The library's own HTTP client (/repo/src/core/util/mod.rs:39-69, through reqwest) uses it on the Location of a redirect, and only
    on http(s) URLs; the rest of the model takes any such function ([join] in Reqwest.v), this one is an instance. *)
From Verif Require Import Base Utf8 UrlEncoded Url WebUrl.

(** A backslash counts as a slash. *)
Definition two_slashes (r : string) : bool := starts_with "//" (unbackslash r).
Definition path_segments (p : string) : list string :=
  split_all "/" (match p with String _ r => r | EmptyString => EmptyString end).

Section Join.
Variable domain : string -> option string.
Variable ipv6 : string -> option string.

(** [parse_relative]: a text without a scheme. *)
Definition relative (base : url) (r : string) : option url :=
  if two_slashes r then web_parse domain ipv6 (u_scheme base +:+ ":" +:+ r)
  else
    let (r1, f) := split_opt "#" r in
    let (r2, q) := split_opt "?" r1 in
    let b := unbackslash r2 in
    let path :=
      if String.eqb b EmptyString then u_path base
      else if starts_with "/" b then path_text (segments b)
      else path_text (walk (tl (rev (path_segments (u_path base)))) (split_all "/" b)) in
    let query := match q with
                 | Some q => Some (pct (in_query true) q)
                 | None => if String.eqb b EmptyString then u_query base else None
                 end in
    Some (mk_url (u_scheme base) (u_auth base) path false query (option_map (pct in_fragment) f)).
(** [Url::join]: a text with the scheme of the base and fewer than two slashes is relative as well. *)
Definition web_join (base : url) (s : string) : option url :=
  if mem_str (u_scheme base) special_schemes then
    let t := drop_tabs (trim_right (trim_left s)) in
    match split_once ":" t with
    | Some (sch, r) =>
        if scheme_ok sch then
          if String.eqb (lowered sch) (u_scheme base) && negb (two_slashes r) then relative base r else web_parse domain ipv6 s
        else relative base t
    | None => relative base t
    end
  else None.
End Join.
