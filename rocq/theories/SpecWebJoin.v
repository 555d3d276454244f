(** Specification vocabulary for references to URLs relative to another URL (url standard; RFC 3986, 5.2). *)
From Verif Require Import Base Url SpecWebUrl SpecHttpUri Effects Reqwest SpecReqwest.

(** The text starts with a scheme. *)
Definition scheme_word (s : string) : Prop :=
  exists c r, s = String c r /\ small c /\ forall d, In d (chars r) -> small d \/ (48 <= byte d <= 57)%N \/ In d (chars "+-.").
Definition with_scheme (t s r : string) : Prop :=
  exists sch, t = sch +:+ ":" +:+ r /\ ~ In ":"%char (chars sch) /\ in_small_letters sch s /\ scheme_word s.
Definition slashed (r : string) : Prop :=
  exists c d x, r = String c (String d x) /\ In c (chars "/\") /\ In d (chars "/\").

(** A text refers to a URL by itself if it names a scheme, other than the one at hand or with two slashes after it. *)
Definition absolute (scheme t : string) : Prop := exists s r, with_scheme t s r /\ (s = scheme -> slashed r).
(** What it says beyond the scheme, if it is not absolute. *)
Definition reference (scheme t r : string) : Prop :=
  with_scheme t scheme r /\ ~ slashed r \/ (forall s x, ~ with_scheme t s x) /\ r = t.

(** The segments [l], starting in the directory [dir], lead to the path [p]. *)
Definition leads (dir l : list string) (p : string) : Prop :=
  exists to, visits dir l to /\ p = "/" +:+ join "/" (if existsb (String.eqb (last l "")) dots then to ++ [""] else to).
Definition cut (x : string) (l : list string) : Prop :=
  l <> [] /\ x = join "/" l /\ forall s, In s l -> ~ In "/"%char (chars s).

(** The reference [r] means [u], given the URL [base]. *)
Definition means (domain ipv6 : string -> option string) (base : url) (r : string) (u : url) : Prop :=
  slashed r /\ reads domain ipv6 (u_scheme base +:+ ":" +:+ r) u
  \/ ~ slashed r /\ exists b b' q f, r = b +:+ tail_of "?" q +:+ tail_of "#" f /\ with_slashes b b'
     /\ ~ In "?"%char (chars b) /\ ~ In "#"%char (chars (b +:+ tail_of "?" q))
     /\ u_scheme u = u_scheme base /\ u_auth u = u_auth base /\ u_opaque u = false
     /\ match f, u_frag u with Some f, Some f' => escaped " ""<>`" f f' | None, None => True | _, _ => False end
     /\ match q with
        | Some q => exists q', u_query u = Some q' /\ escaped " ""#<>'" q q'
        | None => (b = "" -> u_query u = u_query base) /\ (b <> "" -> u_query u = None)
        end
     /\ (b = "" /\ u_path u = u_path base
         \/ (exists x l, b' = "/" +:+ x /\ cut x l /\ leads [] l (u_path u))
         \/ b <> "" /\ (forall x, b' <> "/" +:+ x)
            /\ exists x here l, u_path base = "/" +:+ x /\ cut x here /\ cut b' l /\ leads (removelast here) l (u_path u)).
Definition resolves (domain ipv6 : string -> option string) (base : url) (s : string) (u : url) : Prop :=
  exists t, stripped s t
    /\ (absolute (u_scheme base) t /\ reads domain ipv6 s u
        \/ exists r, reference (u_scheme base) t r /\ means domain ipv6 base r u).

(** A text that can lead away from the place it is found at. *)
Definition names_place (s : string) : Prop :=
  exists t, stripped s t /\ (slashed t \/ exists scheme r, with_scheme t scheme r).
(** The same server. *)
Definition same_place (u v : url) : Prop := u_scheme v = u_scheme u /\ u_auth v = u_auth u.
(** Somebody among these was asked and answered with a redirect to a place of their choice. *)
Definition sent_away (net : http_req -> res exchange) (asked : list http_req) : Prop :=
  exists p x l, In p asked /\ net p = Ok x /\ redirect_status (x_status x) /\ x_location x = Some l /\ names_place l.
