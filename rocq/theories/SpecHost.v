(** Specification vocabulary for the hosts in URLs: IPv6 and IPv4 addresses and domains, as they may be written and as they
    are printed. *)
From Coq Require Import Ascii.
From Verif Require Import Base JsonText SpecWebUrl.

(* ------------------------------------------------------------ numbers *)
(** The value of a hexadecimal digit, and of a text of digits below the radix. *)
Definition digit (c : ascii) (d : N) : Prop :=
  (48 <= byte c <= 57)%N /\ byte c = (48 + d)%N \/ (97 <= byte c <= 102)%N /\ byte c = (87 + d)%N
  \/ (65 <= byte c <= 70)%N /\ byte c = (55 + d)%N.
Inductive number (radix : N) : string -> N -> Prop :=
| number_nil : number radix "" 0
| number_digit s c v d : number radix s v -> digit c d -> (d < radix)%N -> number radix (s +:+ String c "") (radix * v + d).

(* ------------------------------------------------------------ IPv6 *)
(** One to four hexadecimal digits. *)
Definition group (t : string) (n : N) : Prop := t <> "" /\ String.length t <= 4 /\ number 16 t n.
(** Groups with colons between them; the last two groups can be written as an IPv4 address. *)
Inductive groups : string -> list N -> Prop :=
| groups_one t n : group t n -> groups t [n]
| groups_more t n s l : group t n -> groups s l -> groups (t +:+ ":" +:+ s) (n :: l).
Inductive groups_tail : string -> list N -> Prop :=
| tail_groups s l : groups s l -> groups_tail s l
| tail_quad a b c d : (a <= 255)%N -> (b <= 255)%N -> (c <= 255)%N -> (d <= 255)%N ->
    groups_tail (join "." (map dec_N [a; b; c; d])) [256 * a + b; 256 * c + d]%N
| tail_more t n s l : group t n -> groups_tail s l -> groups_tail (t +:+ ":" +:+ s) (n :: l).
(** An IPv6 address: eight groups, or fewer where two colons stand for at least one group of zeros. *)
Definition address6 (s : string) (l : list N) : Prop :=
  groups_tail s l /\ length l = 8
  \/ exists a b before after,
       s = a +:+ "::" +:+ b /\ (a = "" /\ before = [] \/ groups a before) /\ (b = "" /\ after = [] \/ groups_tail b after)
       /\ length before + length after <= 7 /\ l = before ++ repeat 0%N (8 - length before - length after) ++ after.

(** How it is printed: small letters, no leading zeros; the first of the longest runs of two or more groups of zeros is
    left out. *)
Definition shortest (t : string) (n : N) : Prop :=
  group t n /\ (forall c, In c (chars t) -> ~ (65 <= byte c <= 70)%N) /\ (forall c r, t = String "0" (String c r) -> False).
Definition zeros (l : list N) (before run after : list N) : Prop := l = before ++ run ++ after /\ forall n, In n run -> n = 0%N.
Definition printed6 (l : list N) (t : string) : Prop :=
  (forall a run b, zeros l a run b -> length run <= 1)
    /\ (exists ts, Forall2 shortest ts l /\ t = join ":" ts)
  \/ exists a run b ta tb,
       zeros l a run b /\ 2 <= length run
       /\ (forall a' run' b', zeros l a' run' b' -> length run' <= length run /\ (length run' = length run -> length a <= length a'))
       /\ Forall2 shortest ta a /\ Forall2 shortest tb b /\ t = join ":" ta +:+ "::" +:+ join ":" tb.

(* ------------------------------------------------------------ IPv4 *)
(** A part of an IPv4 address: hexadecimal after 0x, octal after 0, or decimal. *)
Definition part (t : string) (n : N) : Prop :=
  (exists h, (t = "0x" +:+ h \/ t = "0X" +:+ h) /\ number 16 h n)
  \/ (exists o, t = "0" +:+ o /\ o <> "" /\ number 8 o n)
  \/ t <> "" /\ number 10 t n /\ (forall r, t = "0" +:+ r -> r = "").
(** Up to four parts, perhaps with a dot after them; the last one fills the bytes that are left. *)
Definition address4 (s : string) (n : N) : Prop :=
  exists texts before z,
    (s = join "." texts \/ s = join "." texts +:+ ".") /\ Forall2 part texts (before ++ [z])
    /\ length before <= 3 /\ (forall x, In x before -> (x <= 255)%N) /\ (z < 256 ^ (4 - N.of_nat (length before)))%N
    /\ n = (z + fold_left N.add (map (fun i => nth i before 0 * 256 ^ (3 - N.of_nat i)) (seq 0 (length before))) 0)%N.
Definition printed4 (n : N) (t : string) : Prop :=
  exists a b c d, (a <= 255 /\ b <= 255 /\ c <= 255 /\ d <= 255)%N /\ n = (((a * 256 + b) * 256 + c) * 256 + d)%N
    /\ t = join "." (map dec_N [a; b; c; d]).

(* ------------------------------------------------------------ domains *)
(** % and two hexadecimal digits stand for a byte; any other % stands for itself. *)
Inductive unescaped : string -> string -> Prop :=
| unescaped_nil : unescaped "" ""
| unescaped_byte h l x y s t : digit h x -> digit l y -> unescaped s t ->
    unescaped (String "%" (String h (String l s))) (String (chr (16 * x + y)) t)
| unescaped_char c s t : ~ (c = "%"%char /\ exists h l x y r, s = String h (String l r) /\ digit h x /\ digit l y) ->
    unescaped s t -> unescaped (String c s) (String c t).
(** The parts between the dots. *)
Definition label (l s : string) : Prop :=
  exists a b, (a = "" \/ exists a', a = a' +:+ ".") /\ (b = "" \/ exists b', b = "." +:+ b') /\ s = a +:+ l +:+ b /\ ~ In "."%char (chars l).
(** A name without international labels. *)
Definition plain_name (s : string) : Prop :=
  (forall c, In c (chars s) -> (byte c < 128)%N)
  /\ ~ exists l x r, label l s /\ in_small_letters l x /\ x = "xn--" +:+ r.
(** What the URL standard allows in a domain. *)
Definition allowed (s : string) : Prop := clean " %#/:<>?@[\]^|" s.
(** The last label, but for a dot at the end, looks like a number. *)
Definition numeric (s : string) : Prop :=
  exists a l, (a = "" \/ exists a', a = a' +:+ ".") /\ (s = a +:+ l \/ s = a +:+ l +:+ ".") /\ ~ In "."%char (chars l)
    /\ (l <> "" /\ (forall c, In c (chars l) -> (48 <= byte c <= 57)%N)
        \/ exists h n, (l = "0x" +:+ h \/ l = "0X" +:+ h) /\ number 16 h n).

(** What the parameter for international names must do: it gives names that are allowed, have no capital letters and
    are not changed again. *)
Definition idna_ok (idna : string -> option string) : Prop :=
  forall s d, idna s = Some d ->
    allowed d /\ (forall c, In c (chars d) -> ~ (65 <= byte c <= 90)%N) /\ (plain_name d \/ idna d = Some d).
Definition named_by (idna : string -> option string) (s d : string) : Prop :=
  exists x, unescaped s x
    /\ (plain_name x /\ in_small_letters x d /\ allowed d \/ ~ plain_name x /\ idna x = Some d).

(* ------------------------------------------------------------ URLs *)
(** The hosts web URLs can have, as they are printed. *)
Definition printed_host (h : string) : Prop :=
  (exists l t, h = "[" +:+ t +:+ "]" /\ address6 t l /\ printed6 l t)
  \/ (exists n, address4 h n /\ printed4 n h)
  \/ h <> "" /\ allowed h /\ ~ numeric h /\ forall c, In c (chars h) -> ~ (65 <= byte c <= 90)%N.
