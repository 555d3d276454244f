(** Result type and text primitives shared by the whole model.

    Rust [String]/[&str] and byte buffers are both Coq [string]s, i.e. sequences of 8-bit
    characters.  The standard-library text functions the code calls ([split_once],
    [strip_prefix], ...) are modelled here. *)
From Coq Require Export String Ascii List Bool Arith NArith ZArith.
Export ListNotations.
Open Scope string_scope.
Open Scope list_scope.

(** [anyhow::Result<A>]: an error carries a short tag naming the failing check instead of the
    full message.  The tag ["panic"] is used for a panicking path. *)
Inductive res (A : Type) : Type :=
| Ok (a : A)
| Err (e : string).
Arguments Ok {A} a.
Arguments Err {A} e.

(** The [?] operator. *)
Definition rbind {A B} (r : res A) (f : A -> res B) : res B :=
  match r with Ok a => f a | Err e => Err e end.
Notation "'let?' x ':=' r 'in' k" := (rbind r (fun x => k))
  (at level 200, x pattern, r at level 100, k at level 200, right associativity).
Definition rmap {A B} (f : A -> B) (r : res A) : res B :=
  match r with Ok a => Ok (f a) | Err e => Err e end.
Definition is_ok {A} (r : res A) : bool := match r with Ok _ => true | Err _ => false end.

(** [Option::ok_or] / [anyhow::Context::context] on an option. *)
Definition ok_or {A} (o : option A) (e : string) : res A :=
  match o with Some a => Ok a | None => Err e end.
(** [Result::context]: replaces the message. *)
Definition context {A} (r : res A) (e : string) : res A :=
  match r with Ok a => Ok a | Err _ => Err e end.
Definition obind {A B} (o : option A) (f : A -> option B) : option B :=
  match o with Some a => f a | None => None end.
Definition of_bool (b : bool) (e : string) : res unit := if b then Ok tt else Err e.

(** Byte values of characters. *)
Definition byte (c : ascii) : N := N_of_ascii c.
Definition chr (n : N) : ascii := ascii_of_N n.
Definition s1 (c : ascii) : string := String c EmptyString.

Notation "s +:+ t" := (String.append s t) (at level 60, right associativity).

Fixpoint str_all (f : ascii -> bool) (s : string) : bool :=
  match s with EmptyString => true | String c r => f c && str_all f r end.

Fixpoint str_rev_app (s acc : string) : string :=
  match s with EmptyString => acc | String c r => str_rev_app r (String c acc) end.
Definition str_rev (s : string) : string := str_rev_app s EmptyString.

(** [str::contains(char)]. *)
Fixpoint has_char (c : ascii) (s : string) : bool :=
  match s with EmptyString => false | String d r => Ascii.eqb c d || has_char c r end.

(** [str::split_once(char)]: split at the first occurrence. *)
Fixpoint split_once (c : ascii) (s : string) : option (string * string) :=
  match s with
  | EmptyString => None
  | String d r =>
      if Ascii.eqb c d then Some (EmptyString, r)
      else match split_once c r with
           | Some (a, b) => Some (String d a, b)
           | None => None
           end
  end.

(** [str::rsplit_once(char)]: split at the last occurrence. *)
Fixpoint rsplit_once (c : ascii) (s : string) : option (string * string) :=
  match s with
  | EmptyString => None
  | String d r =>
      match rsplit_once c r with
      | Some (a, b) => Some (String d a, b)
      | None => if Ascii.eqb c d then Some (EmptyString, r) else None
      end
  end.

(** [str::split(char)]: all pieces; never the empty list. *)
Fixpoint split_all (c : ascii) (s : string) : list string :=
  match s with
  | EmptyString => [EmptyString]
  | String d r =>
      if Ascii.eqb c d then EmptyString :: split_all c r
      else match split_all c r with
           | [] => [s1 d]
           | p :: ps => String d p :: ps
           end
  end.

(** [str::strip_prefix(&str)]. *)
Fixpoint strip_prefix (p s : string) : option string :=
  match p, s with
  | EmptyString, _ => Some s
  | String a p', String b s' => if Ascii.eqb a b then strip_prefix p' s' else None
  | String _ _, EmptyString => None
  end.

(** [str::starts_with(&str)]. *)
Definition starts_with (p s : string) : bool :=
  match strip_prefix p s with Some _ => true | None => false end.

(** [str::contains(&str)]. *)
Fixpoint has_sub (p s : string) : bool :=
  starts_with p s ||
  match s with EmptyString => false | String _ r => has_sub p r end.

(** [str::trim_end_matches(char)]. *)
Fixpoint trim_end (c : ascii) (s : string) : string :=
  match s with
  | EmptyString => EmptyString
  | String d r =>
      match trim_end c r with
      | EmptyString => if Ascii.eqb c d then EmptyString else s1 d
      | r' => String d r'
      end
  end.

(** [Vec<String>::contains]. *)
Definition mem_str (x : string) (l : list string) : bool := existsb (String.eqb x) l.

(** Bytewise order on strings ([Ord for String]). *)
Definition str_cmp (a b : string) : comparison := String.compare a b.
Arguments str_cmp : simpl never.

(** [slice::join]/[concat] with a separator. *)
Fixpoint join (sep : string) (l : list string) : string :=
  match l with
  | [] => EmptyString
  | [x] => x
  | x :: r => x +:+ sep +:+ join sep r
  end.

Fixpoint sconcat (l : list string) : string :=
  match l with [] => EmptyString | x :: r => x +:+ sconcat r end.

(** Lists with possibly failing steps: [iter.map(f).collect::<Result<Vec<_>,_>>()]. *)
Fixpoint mapM {A B} (f : A -> res B) (l : list A) : res (list B) :=
  match l with
  | [] => Ok []
  | x :: r => let? y := f x in let? ys := mapM f r in Ok (y :: ys)
  end.
