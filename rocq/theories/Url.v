(** URLs (crate url, external). A [Url] is kept as its components; [Url::parse] is an oracle
    (a parameter of every function that parses). *)
From Verif Require Import Base.

Record url := mk_url {
  u_scheme : string;
  u_auth : option string;        (* [None]: no "//" *)
  u_path : string;
  u_opaque : bool;               (* [cannot_be_a_base] *)
  u_query : option string;
  u_frag : option string
}.

(** [Url::as_str] / [Display]. *)
Definition url_str (u : url) : string :=
  u_scheme u +:+ ":" +:+
  (match u_auth u with Some a => "//" +:+ a | None => EmptyString end) +:+
  u_path u +:+
  (match u_query u with Some q => String "?" q | None => EmptyString end) +:+
  (match u_frag u with Some f => String "#" f | None => EmptyString end).

(** [Url::authority]: empty when there is none. *)
Definition url_authority (u : url) : string :=
  match u_auth u with Some a => a | None => EmptyString end.

(** [Url::set_query(Some(q))] for a [q] made of characters that need no escaping in a query
    (always the case for serde_urlencoded output). *)
Definition set_query (u : url) (q : string) : url :=
  mk_url (u_scheme u) (u_auth u) (u_path u) (u_opaque u) (Some q) (u_frag u).

(** [url.path_segments_mut()?.push(seg)] for a segment that needs no escaping: an error for
    URLs that cannot be a base; a slash is added unless the path is exactly ["/"] (url 2.x
    [PathSegmentsMut::extend]). *)
Definition push_segment (u : url) (seg : string) : res url :=
  if u_opaque u then Err "cannot-be-a-base"
  else
    let p := match u_path u with
             | String _ EmptyString => u_path u +:+ seg
             | _ => u_path u +:+ String "/" seg
             end in
    Ok (mk_url (u_scheme u) (u_auth u) p (u_opaque u) (u_query u) (u_frag u)).

(** A simple splitting parser for URLs already in normal form.  Not used by the model of the
    library (parsing is an oracle there); it witnesses that the oracle hypotheses of the theorems
    can be met. *)
Definition split_opt (c : ascii) (s : string) : string * option string :=
  match split_once c s with Some (a, b) => (a, Some b) | None => (s, None) end.
Fixpoint break_slash (s : string) : string * string :=
  match s with
  | EmptyString => (EmptyString, EmptyString)
  | String c r => if Ascii.eqb c "/" then (EmptyString, s)
                  else let (a, b) := break_slash r in (String c a, b)
  end.
Definition simple_parse (s : string) : option url :=
  match split_once ":" s with
  | None => None
  | Some (sch, r) =>
      if String.eqb sch EmptyString then None else
      let (r1, fr) := split_opt "#" r in
      let (r2, q) := split_opt "?" r1 in
      match strip_prefix "//" r2 with
      | Some r3 => let (a, p) := break_slash r3 in Some (mk_url sch (Some a) p false q fr)
      | None => Some (mk_url sch None r2 (negb (starts_with "/" r2)) q fr)
      end
  end.
