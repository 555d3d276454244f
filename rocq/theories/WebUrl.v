(** [Url::parse] (crate url 2, external; /repo/Cargo.toml:40,69) for every scheme but "file", as the WHATWG URL standard
    describes it.  The rest of the model takes any parser; this one is an instance.  It is what reads the URLs of
    /repo/src/wallet.rs:102, /repo/src/core/authorization_request/parameters.rs (request_uri, response_uri),
    /repo/examples/verifier-conformance-adapter/main.rs:28 and /repo/examples/cli-verifier/main.rs:69.
    Simplifications: "file" URLs are not read; reading a domain (percent-decoding, IDNA, IPv4 numbers, forbidden characters) and reading
    an IPv6 address are parameters.  A path that would look like an authority when printed keeps the "/." of its printed form. *)
From Verif Require Import Base Utf8 JsonText UrlEncoded Url.

(** The percent-encode sets (url standard, 1.3). *)
Definition in_controls (c : ascii) : bool := (byte c <? 32)%N || (126 <? byte c)%N.
Definition in_fragment (c : ascii) : bool := in_controls c || has_char c " ""<>`".
Definition in_path (c : ascii) : bool := in_fragment c || has_char c "#?{}".
Definition in_userinfo (c : ascii) : bool := in_path c || has_char c "/:;=@[\]^|".
Definition in_query (special : bool) (c : ascii) : bool := in_controls c || has_char c " ""#<>" || special && Ascii.eqb c "'".
(** [utf8_percent_encode]. *)
Definition pct_char (set : ascii -> bool) (c : ascii) : string :=
  if set c then String "%" (String (hex_upper (byte c / 16)) (s1 (hex_upper (byte c mod 16)))) else s1 c.
Fixpoint pct (set : ascii -> bool) (s : string) : string :=
  match s with EmptyString => EmptyString | String c r => pct_char set c +:+ pct set r end.

(** Control characters and spaces at both ends are dropped, tabs and line ends everywhere. *)
Definition control_or_space (c : ascii) : bool := (byte c <=? 32)%N.
Fixpoint trim_left (s : string) : string :=
  match s with String c r => if control_or_space c then trim_left r else s | EmptyString => EmptyString end.
Fixpoint trim_right (s : string) : string :=
  match s with
  | EmptyString => EmptyString
  | String c r => match trim_right r with
                  | EmptyString => if control_or_space c then EmptyString else s1 c
                  | r' => String c r'
                  end
  end.
Definition tab_or_newline (c : ascii) : bool := (byte c =? 9)%N || (byte c =? 10)%N || (byte c =? 13)%N.
Fixpoint drop_tabs (s : string) : string :=
  match s with
  | EmptyString => EmptyString
  | String c r => if tab_or_newline c then drop_tabs r else String c (drop_tabs r)
  end.

(** [parse_scheme]. *)
Definition upper_alpha (c : ascii) : bool := in_range 65 90 c.
Definition lower_alpha (c : ascii) : bool := in_range 97 122 c.
Definition scheme_char (c : ascii) : bool := upper_alpha c || lower_alpha c || in_range 48 57 c || has_char c "+-.".
Definition scheme_ok (s : string) : bool :=
  match s with EmptyString => false | String c _ => (upper_alpha c || lower_alpha c) && str_all scheme_char s end.
Definition to_lower (c : ascii) : ascii := if upper_alpha c then chr (byte c + 32) else c.
Fixpoint lowered (s : string) : string :=
  match s with EmptyString => EmptyString | String c r => String (to_lower c) (lowered r) end.
Definition special_schemes : list string := ["http"; "https"; "ws"; "wss"; "ftp"].
Definition default_port (scheme : string) : option N :=
  if mem_str scheme ["http"; "ws"] then Some 80%N
  else if mem_str scheme ["https"; "wss"] then Some 443%N
  else if String.eqb scheme "ftp" then Some 21%N else None.

(** Path segments: [.] and [..], also percent-encoded. *)
Definition single_dot (s : string) : bool := mem_str s ["."; "%2e"; "%2E"].
Definition double_dot (s : string) : bool :=
  mem_str s [".."; ".%2e"; ".%2E"; "%2e."; "%2E."; "%2e%2e"; "%2e%2E"; "%2E%2e"; "%2E%2E"].
Fixpoint walk (before : list string) (l : list string) : list string :=
  match l with
  | [] => rev before
  | s :: r =>
      let before := if double_dot s then tl before else if single_dot s then before else pct in_path s :: before in
      match r with
      | [] => rev (if double_dot s || single_dot s then EmptyString :: before else before)
      | _ => walk before r
      end
  end.
Definition path_text (l : list string) : string := "/" +:+ join "/" l.
(** [parse_path] of a text that is empty or starts with a slash. *)
Definition segments (p : string) : list string :=
  walk [] (split_all "/" (match p with String _ r => r | EmptyString => EmptyString end)).

(** For the special schemes a backslash counts as a slash, and any number of slashes precede the authority. *)
Fixpoint unbackslash (s : string) : string :=
  match s with
  | EmptyString => EmptyString
  | String c r => String (if Ascii.eqb c "\" then "/"%char else c) (unbackslash r)
  end.
Fixpoint drop_slashes (s : string) : string :=
  match s with String c r => if Ascii.eqb c "/" then drop_slashes r else s | EmptyString => EmptyString end.

Section Parser.
(** External: a domain or IPv4 address as [Host::parse] of the crate prints it; an IPv6 address as it is printed. *)
Variable domain : string -> option string.
Variable ipv6 : string -> option string.

(** [parse_port]: absent if empty or the default. *)
Definition read_port (scheme t : string) : option (option N) :=
  if String.eqb t EmptyString then Some None
  else if str_all is_digit t then
    let n := digits_val 0 t in
    if (n <=? 65535)%N then
      Some (match default_port scheme with Some d => if N.eqb n d then None else Some n | None => Some n end)
    else None
  else None.
(** [parse_host] and [Host::parse_opaque]: the host as printed, and the text of the port. *)
Definition read_host (special : bool) (t : string) : option (string * option string) :=
  match strip_prefix "[" t with
  | Some r =>
      match split_once "]" r with
      | Some (ip, rest) =>
          match ipv6 ip with
          | Some a => match rest with
                      | EmptyString => Some ("[" +:+ a +:+ "]", None)
                      | String c p => if Ascii.eqb c ":" then Some ("[" +:+ a +:+ "]", Some p) else None
                      end
          | None => None
          end
      | None => None
      end
  | None =>
      let (h, p) := split_opt ":" t in
      if special then match domain h with Some d => Some (d, p) | None => None end
      else if str_all (fun c => negb (has_char c (String (chr 0) " #/:<>?@[\]^|"))) h then Some (pct in_controls h, p)
      else None
  end.
(** [parse_userinfo]. *)
Definition userinfo_text (t : string) : string :=
  let (user, password) := split_opt ":" t in
  let p := match password with Some p => p | None => EmptyString end in
  pct in_userinfo user
  +:+ (if String.eqb p EmptyString then EmptyString else ":" +:+ pct in_userinfo p)
  +:+ (if String.eqb user EmptyString && String.eqb p EmptyString then EmptyString else "@").
Definition port_text (p : option N) : string := match p with Some n => ":" +:+ dec_N n | None => EmptyString end.
Definition read_authority (scheme : string) (special : bool) (t : string) : option string :=
  let (user, hp) := match rsplit_once "@" t with Some (u, h) => (Some u, h) | None => (None, t) end in
  match read_host special hp with
  | None => None
  | Some (h, pt) =>
      match (match pt with Some t => read_port scheme t | None => Some None end) with
      | None => None
      | Some port =>
          if String.eqb h EmptyString && (special || match user, pt with None, None => false | _, _ => true end) then None
          else Some (match user with Some u => userinfo_text u | None => EmptyString end +:+ h +:+ port_text port)
      end
  end.

(** [Url::parse]. *)
Definition web_parse (s : string) : option url :=
  match split_once ":" (drop_tabs (trim_right (trim_left s))) with
  | None => None
  | Some (sch, r) =>
      let scheme := lowered sch in
      if negb (scheme_ok sch) || String.eqb scheme "file" then None
      else
        let special := mem_str scheme special_schemes in
        let (r1, f) := split_opt "#" r in
        let (r2, q) := split_opt "?" r1 in
        let q := option_map (pct (in_query special)) q in
        let f := option_map (pct in_fragment) f in
        if special then
          let (a, p) := break_slash (drop_slashes (unbackslash r2)) in
          match read_authority scheme true a with
          | Some a => Some (mk_url scheme (Some a) (path_text (segments p)) false q f)
          | None => None
          end
        else match strip_prefix "//" r2 with
        | Some r3 =>
            let (a, p) := break_slash r3 in
            match read_authority scheme false a with
            | Some a => Some (mk_url scheme (Some a) (if String.eqb p EmptyString then EmptyString else path_text (segments p)) false q f)
            | None => None
            end
        | None =>
            if starts_with "/" r2 then
              let l := segments r2 in
              let hidden := match l with EmptyString :: _ :: _ => "/." | _ => EmptyString end in
              Some (mk_url scheme None (hidden +:+ path_text l) false q f)
            else Some (mk_url scheme None (pct in_controls r2) true q f)
        end
  end.
End Parser.
