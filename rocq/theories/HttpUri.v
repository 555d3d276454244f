(** Which texts [http::Uri] (crate http 1, external; /repo/Cargo.toml:19) takes: [Uri::from_shared].
    It decides whether the wallet can build its requests at all: /repo/src/core/authorization_request/mod.rs:122
    (the GET of a request_uri) and /repo/src/wallet.rs:36 (the POST of the response).
    The rest of the model takes any such test ([uri_ok]); this one is an instance.
    Simplification: bytes above 126 are refused also in paths and queries (later versions of the crate take UTF-8 there). *)
From Verif Require Import Base Utf8 Url WebUrl.

(** The table [URI_CHARS]: what RFC 3986 calls unreserved and reserved. *)
Definition uri_char (c : ascii) : bool :=
  upper_alpha c || lower_alpha c || in_range 48 57 c || has_char c "-._~:/?#[]@!$&'()*+,;=".
(** [Authority::parse]: what follows the authority.  Counts the colons since the user information or the brackets, and remembers which
    brackets were seen, whether a percent sign was, and whether the last byte was an at sign. *)
Fixpoint uri_authority (colons : N) (opened closed percent at_sign : bool) (s : string) : option string :=
  let finish := if xorb opened closed || (1 <? colons)%N || at_sign || percent then None else Some s in
  match s with
  | EmptyString => finish
  | String c r =>
      if has_char c "/?#" then finish
      else if Ascii.eqb c ":" then
        if (8 <=? colons)%N then None else uri_authority (colons + 1) opened closed percent false r
      else if Ascii.eqb c "[" then
        if percent || opened then None else uri_authority colons true closed percent false r
      else if Ascii.eqb c "]" then
        if negb opened || closed then None else uri_authority 0 opened true false false r
      else if Ascii.eqb c "@" then uri_authority 0 opened closed false true r
      else if Ascii.eqb c "%" then uri_authority colons opened closed true false r
      else if uri_char c then uri_authority colons opened closed percent false r
      else None
  end.
(** [PathAndQuery::from_shared]; what follows a number sign is dropped unread. *)
Definition path_byte (c : ascii) : bool :=
  has_char c "!=|~""{}" || in_range 36 59 c || in_range 64 95 c || in_range 97 122 c.
Definition query_byte (c : ascii) : bool := has_char c "!=" || in_range 36 59 c || in_range 63 126 c.
Fixpoint uri_query (s : string) : bool :=
  match s with
  | EmptyString => true
  | String c r => if Ascii.eqb c "#" then true else query_byte c && uri_query r
  end.
Fixpoint uri_path (s : string) : bool :=
  match s with
  | EmptyString => true
  | String c r => if Ascii.eqb c "?" then uri_query r else if Ascii.eqb c "#" then true else path_byte c && uri_path r
  end.
(** [Scheme2::parse]: what follows the scheme and "://", if there is one; a scheme has at most 64 bytes. *)
Fixpoint other_scheme (n : N) (s : string) : option (option string) :=
  match s with
  | EmptyString => Some None
  | String c r =>
      if Ascii.eqb c ":" then
        match strip_prefix "//" r with
        | Some rest => if (64 <? n)%N then None else Some (Some rest)
        | None => Some None
        end
      else if scheme_char c then other_scheme (n + 1) r
      else Some None
  end.
Fixpoint strip_any_case (p s : string) : option string :=
  match p, s with
  | EmptyString, _ => Some s
  | String d p', String c r => if Ascii.eqb (to_lower c) d then strip_any_case p' r else None
  | String _ _, EmptyString => None
  end.
Definition uri_scheme (s : string) : option (option string) :=
  match strip_any_case "http://" s, strip_any_case "https://" s with
  | Some t, _ => Some (Some t)
  | None, Some t => Some (Some t)
  | None, None => if (3 <? String.length s)%nat then other_scheme 0 s else Some None
  end.
(** [Uri::from_shared] and [parse_full]. *)
Definition web_uri (s : string) : bool :=
  if (65534 <? N.of_nat (String.length s))%N then false
  else match s with
  | EmptyString => false
  | String c r =>
      if Ascii.eqb c "/" then uri_path s
      else match uri_scheme s with
      | None => false
      | Some None => match uri_authority 0 false false false false s with Some EmptyString => true | _ => false end
      | Some (Some t) =>
          match uri_authority 0 false false false false t with
          | Some rest => negb (String.eqb rest t) && uri_path rest
          | None => false
          end
      end
  end.
