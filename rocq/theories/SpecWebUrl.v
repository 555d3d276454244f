(** Specification vocabulary for URLs as they are written: which components a URL that was read has. *)
From Verif Require Import Base JsonText Url.

Definition chars (s : string) : list ascii := list_ascii_of_string s.
(** Printable ASCII (and spaces) without the excluded characters. *)
Definition clean (excluded s : string) : Prop :=
  forall c, In c (chars s) -> (32 <= byte c <= 126)%N /\ ~ In c (chars excluded).
Definition special (scheme : string) : Prop := In scheme ["http"; "https"; "ws"; "wss"; "ftp"].

(** A small letter, then small letters, digits, plus, minus and dots. *)
Definition small (c : ascii) : Prop := (97 <= byte c <= 122)%N.
Definition scheme_name (s : string) : Prop :=
  (exists c r, s = String c r /\ small c /\ forall d, In d (chars r) -> small d \/ (48 <= byte d <= 57)%N \/ In d (chars "+-."))
  /\ s <> "file".

(** What the standard requires of hosts: a name or an address is printed in a form that is read as itself. *)
Definition hosts_ok (domain ipv6 : string -> option string) : Prop :=
  (forall s d, domain s = Some d -> domain d = Some d /\ d <> "" /\ clean " #/:<>?@[\]^|%" d)
  /\ (forall s a, ipv6 s = Some a -> ipv6 a = Some a
        /\ forall c, In c (chars a) -> c = ":"%char \/ (48 <= byte c <= 57)%N \/ (97 <= byte c <= 102)%N).

Definition user_text (s : string) : Prop := clean " ""<>`#?{}/:;=@[\]^|" s.
(** User name and password, if any: one of them is not empty, and an empty password is left out. *)
Definition userinfo (s : string) : Prop :=
  s = "" \/ (exists u, s = u +:+ "@" /\ user_text u /\ u <> "")
  \/ exists u p, s = u +:+ ":" +:+ p +:+ "@" /\ user_text u /\ user_text p /\ p <> "".
(** A port, if it is not the one the scheme has anyway. *)
Definition usual_ports : list (string * N) := [("http", 80%N); ("ws", 80%N); ("https", 443%N); ("wss", 443%N); ("ftp", 21%N)].
Definition port (scheme s : string) : Prop :=
  s = "" \/ exists n, s = ":" +:+ dec_N n /\ (n <= 65535)%N /\ ~ In (scheme, n) usual_ports.
Definition host (domain ipv6 : string -> option string) (scheme h : string) : Prop :=
  (exists a, h = "[" +:+ a +:+ "]" /\ ipv6 a = Some a)
  \/ special scheme /\ domain h = Some h
  \/ ~ special scheme /\ clean " #/:<>?@[\]^|" h.
Definition authority (domain ipv6 : string -> option string) (scheme a : string) : Prop :=
  exists u h p, a = u +:+ h +:+ p /\ userinfo u /\ host domain ipv6 scheme h /\ port scheme p
    /\ (h = "" -> u = "" /\ p = "").

(** Path segments, none of which means this or the parent directory. *)
Definition dots : list string :=
  ["."; "%2e"; "%2E"; ".."; ".%2e"; ".%2E"; "%2e."; "%2E."; "%2e%2e"; "%2e%2E"; "%2E%2e"; "%2E%2E"].
Definition segment (scheme s : string) : Prop :=
  clean " ""<>`#?{}/" s /\ (special scheme -> ~ In "\"%char (chars s)) /\ ~ In s dots.
Definition path_of (scheme : string) (l : list string) (p : string) : Prop :=
  l <> [] /\ (forall s, In s l -> segment scheme s) /\ p = "/" +:+ join "/" l.
Definition query_text (scheme q : string) : Prop :=
  clean " ""#<>" q /\ (special scheme -> ~ In "'"%char (chars q)).

(** A URL in the form in which it is printed. *)
Definition normal (domain ipv6 : string -> option string) (u : url) : Prop :=
  scheme_name (u_scheme u)
  /\ (forall q, u_query u = Some q -> query_text (u_scheme u) q)
  /\ (forall f, u_frag u = Some f -> clean " ""<>`" f)
  /\ ((exists a, u_auth u = Some a /\ authority domain ipv6 (u_scheme u) a /\ u_opaque u = false
         /\ (special (u_scheme u) -> u_path u <> "" /\ a <> "")
         /\ (u_path u = "" \/ exists l, path_of (u_scheme u) l (u_path u)))
      \/ u_auth u = None /\ ~ special (u_scheme u) /\ u_opaque u = false
         /\ (exists l p, path_of (u_scheme u) l p
               /\ ((forall s r, l <> "" :: s :: r) /\ u_path u = p \/ (exists s r, l = "" :: s :: r) /\ u_path u = "/." +:+ p))
      \/ u_auth u = None /\ ~ special (u_scheme u) /\ u_opaque u = true
         /\ clean "?#" (u_path u) /\ (forall r, u_path u <> "/" +:+ r)
         /\ (u_query u = None -> u_frag u = None -> forall r, u_path u <> r +:+ " ")).

(** How a URL is read from a text. *)
Definition kept (excluded : string) (c : ascii) : Prop := (32 <= byte c <= 126)%N /\ ~ In c (chars excluded).
Definition hex_of (d : N) (h : ascii) : Prop := nth_error (chars "0123456789ABCDEF") (N.to_nat d) = Some h.
(** Bytes that are excluded or not printable are written as % and two digits. *)
Inductive escaped (excluded : string) : string -> string -> Prop :=
| escaped_nil : escaped excluded "" ""
| escaped_kept c s t : kept excluded c -> escaped excluded s t -> escaped excluded (String c s) (String c t)
| escaped_byte c h l s t : ~ kept excluded c -> hex_of (byte c / 16) h -> hex_of (byte c mod 16) l -> escaped excluded s t ->
    escaped excluded (String c s) (String "%" (String h (String l t))).

(** Spaces and control characters around the text are dropped, tabs and line ends within it as well. *)
Definition stripped (s t : string) : Prop :=
  exists a m b, s = a +:+ m +:+ b
    /\ (forall c, In c (chars a) -> (byte c <= 32)%N) /\ (forall c, In c (chars b) -> (byte c <= 32)%N)
    /\ (forall c r, m = String c r -> (32 < byte c)%N) /\ (forall c r, m = r +:+ String c "" -> (32 < byte c)%N)
    /\ chars t = filter (fun c => negb (existsb (N.eqb (byte c)) [9; 10; 13]%N)) (chars m).
Definition in_small_letters (s t : string) : Prop :=
  Forall2 (fun c d => (65 <= byte c <= 90)%N /\ byte d = (byte c + 32)%N \/ ~ (65 <= byte c <= 90)%N /\ d = c) (chars s) (chars t).
Definition with_slashes (s t : string) : Prop :=
  Forall2 (fun c d => c = "\"%char /\ d = "/"%char \/ c <> "\"%char /\ d = c) (chars s) (chars t).

(** [.] stays where it is, [..] goes up, every other segment goes down. *)
Inductive visits : list string -> list string -> list string -> Prop :=
| visits_end at_ : visits at_ [] at_
| visits_here at_ s l to : In s ["."; "%2e"; "%2E"] -> visits at_ l to -> visits at_ (s :: l) to
| visits_up at_ s l to : In s dots -> ~ In s ["."; "%2e"; "%2E"] -> visits (removelast at_) l to -> visits at_ (s :: l) to
| visits_down at_ s t l to : ~ In s dots -> escaped " ""<>`#?{}" s t -> visits (at_ ++ [t]) l to -> visits at_ (s :: l) to.
(** The path of the text: segments between slashes; a path that ends in a dot segment is a directory. *)
Definition path_reads (p : string) (r : list string) : Prop :=
  exists l x to, (p = "" /\ x = "" \/ p = String "/" x) /\ l <> [] /\ x = join "/" l /\ (forall s, In s l -> ~ In "/"%char (chars s))
    /\ visits [] l to /\ (In (last l "") dots /\ r = to ++ [""] \/ ~ In (last l "") dots /\ r = to).

Definition user_reads (u t : string) : Prop :=
  exists name password name' password',
    (u = name +:+ ":" +:+ password \/ u = name /\ password = "") /\ ~ In ":"%char (chars name)
    /\ escaped " ""<>`#?{}/:;=@[\]^|" name name' /\ escaped " ""<>`#?{}/:;=@[\]^|" password password'
    /\ (u = "" \/ u = ":" -> t = "")
    /\ (u <> "" -> u <> ":" -> t = name' +:+ (if String.eqb password' "" then "" else ":" +:+ password') +:+ "@").
Definition value_of (digits : string) : N := fold_left (fun n c => 10 * n + (byte c - 48))%N (chars digits) 0%N.
Definition port_reads (scheme s t : string) : Prop :=
  s = "" /\ t = "" \/ s = ":" /\ t = ""
  \/ exists d, s = ":" +:+ d /\ d <> "" /\ (forall c, In c (chars d) -> (48 <= byte c <= 57)%N) /\ (value_of d <= 65535)%N
       /\ (In (scheme, value_of d) usual_ports /\ t = "" \/ ~ In (scheme, value_of d) usual_ports /\ t = ":" +:+ dec_N (value_of d)).
Definition host_reads (domain ipv6 : string -> option string) (scheme s t : string) : Prop :=
  (exists ip a, s = "[" +:+ ip +:+ "]" /\ ~ In "]"%char (chars ip) /\ ipv6 ip = Some a /\ t = "[" +:+ a +:+ "]")
  \/ (forall r, s <> "[" +:+ r) /\ ~ In ":"%char (chars s)
     /\ (special scheme /\ domain s = Some t
         \/ ~ special scheme /\ (forall c, In c (chars s) -> byte c <> 0%N /\ ~ In c (chars " #/:<>?@[\]^|")) /\ escaped "" s t).
Definition authority_reads (domain ipv6 : string -> option string) (scheme s t : string) : Prop :=
  exists u h p u' h' p',
    (s = h +:+ p /\ u' = "" \/ s = u +:+ "@" +:+ h +:+ p /\ user_reads u u')
    /\ ~ In "@"%char (chars (h +:+ p))
    /\ host_reads domain ipv6 scheme h h' /\ port_reads scheme p p' /\ t = u' +:+ h' +:+ p'
    /\ (h' <> "" \/ ~ special scheme /\ s = "").

Definition tail_of (c : ascii) (o : option string) : string := match o with Some x => String c x | None => "" end.
Definition reads (domain ipv6 : string -> option string) (s : string) (u : url) : Prop :=
  exists t sch b q f, stripped s t /\ t = sch +:+ ":" +:+ b +:+ tail_of "?" q +:+ tail_of "#" f
    /\ ~ In ":"%char (chars sch) /\ in_small_letters sch (u_scheme u) /\ scheme_name (u_scheme u)
    /\ ~ In "?"%char (chars b) /\ ~ In "#"%char (chars (b +:+ tail_of "?" q))
    /\ match q, u_query u with
       | Some q, Some q' => special (u_scheme u) /\ escaped " ""#<>'" q q' \/ ~ special (u_scheme u) /\ escaped " ""#<>" q q'
       | None, None => True
       | _, _ => False
       end
    /\ match f, u_frag u with Some f, Some f' => escaped " ""<>`" f f' | None, None => True | _, _ => False end
    /\ ((exists b' n a p a' l, special (u_scheme u) /\ with_slashes b b' /\ b' = string_of_list_ascii (repeat "/"%char n) +:+ a +:+ p
           /\ (forall r, a +:+ p <> "/" +:+ r)
           /\ ~ In "/"%char (chars a) /\ authority_reads domain ipv6 (u_scheme u) a a' /\ path_reads p l
           /\ u_auth u = Some a' /\ u_path u = "/" +:+ join "/" l /\ u_opaque u = false)
        \/ (exists a p a', ~ special (u_scheme u) /\ b = "//" +:+ a +:+ p
           /\ ~ In "/"%char (chars a) /\ authority_reads domain ipv6 (u_scheme u) a a'
           /\ (p = "" /\ u_path u = "" \/ p <> "" /\ exists l, path_reads p l /\ u_path u = "/" +:+ join "/" l)
           /\ u_auth u = Some a' /\ u_opaque u = false)
        \/ (exists x l, ~ special (u_scheme u) /\ b = "/" +:+ x /\ (forall r, x <> "/" +:+ r) /\ path_reads b l
           /\ u_path u = (match l with "" :: _ :: _ => "/./" | _ => "/" end) +:+ join "/" l
           /\ u_auth u = None /\ u_opaque u = false)
        \/ (~ special (u_scheme u) /\ (forall r, b <> "/" +:+ r) /\ escaped "" b (u_path u)
           /\ u_auth u = None /\ u_opaque u = true)).
