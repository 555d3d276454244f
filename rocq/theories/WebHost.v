(** The hosts [Url::parse] reads (crate url 2, host.rs, external), as the WHATWG URL standard describes them: instances of
    the parameters [domain] and [ipv6] of WebUrl.v.  They decide the hosts of the URLs of /repo/src/wallet.rs:102,
    /repo/src/core/authorization_request/parameters.rs (request_uri, response_uri),
    /repo/examples/verifier-conformance-adapter/main.rs:28 and /repo/examples/cli-verifier/main.rs:69.
    Simplification: names that are not ASCII, or that have a label starting with "xn--", are left to a parameter. *)
From Verif Require Import Base Utf8 JsonText UrlEncoded Url WebUrl.

(* ------------------------------------------------------------ IPv6 *)
(** [parse_ipv6addr]: up to [n] hexadecimal digits. *)
Fixpoint take_hex (n : nat) (v : N) (s : string) : N * string :=
  match n, s with
  | S n', String c r => match hex_val c with Some d => take_hex n' (16 * v + d)%N r | None => (v, s) end
  | _, _ => (v, s)
  end.
(** One number of an IPv4 address at the end: no leading zero, at most 255. *)
Definition dec_byte (s : string) : option N :=
  if int_part_ok s && (digits_val 0 s <=? 255)%N then Some (digits_val 0 s) else None.
Definition quad (s : string) : option (list N) :=
  match split_all "." s with
  | [a; b; c; d] =>
      match dec_byte a, dec_byte b, dec_byte c, dec_byte d with
      | Some a, Some b, Some c, Some d => Some [256 * a + b; 256 * c + d]%N
      | _, _, _, _ => None
      end
  | _ => None
  end.
(** The main loop: the pieces so far and where two colons were met. *)
Fixpoint pieces_loop (fuel : nat) (s : string) (acc : list N) (compress : option nat) : option (list N * option nat) :=
  match fuel with
  | O => None
  | S f =>
      match s with
      | EmptyString => Some (acc, compress)
      | String c r =>
          if Nat.eqb (length acc) 8 then None
          else if Ascii.eqb c ":" then
            match compress with
            | Some _ => None
            | None => pieces_loop f r (acc ++ [0%N]) (Some (S (length acc)))
            end
          else
            let (v, rest) := take_hex 4 0 s in
            match rest with
            | EmptyString => Some (acc ++ [v], compress)
            | String d r' =>
                if Ascii.eqb d "." then
                  if String.eqb rest s || Nat.ltb 6 (length acc) then None
                  else match quad s with Some l => Some (acc ++ l, compress) | None => None end
                else if Ascii.eqb d ":" then
                  if String.eqb r' EmptyString then None else pieces_loop f r' (acc ++ [v]) compress
                else None
            end
      end
  end.
Definition pieces (s : string) : option (list N) :=
  if Nat.ltb (String.length s) 2 then None
  else
    match (match s with
           | String c (String d r) =>
               if Ascii.eqb c ":" then if Ascii.eqb d ":" then pieces_loop (S (String.length s)) r [0%N] (Some 1) else None
               else pieces_loop (S (String.length s)) s [] None
           | _ => None
           end) with
    | Some (l, Some k) => Some (firstn k l ++ repeat 0%N (8 - length l) ++ skipn k l)
    | Some (l, None) => if Nat.eqb (length l) 8 then Some l else None
    | None => None
    end.

(** [{:x}] of a 16-bit number. *)
Fixpoint drop_zeros (s : string) : string :=
  match s with
  | String c (String _ _ as r) => if Ascii.eqb c "0" then drop_zeros r else s
  | _ => s
  end.
Definition hex_piece (n : N) : string :=
  drop_zeros (String (hexdig (n / 4096)) (String (hexdig (n / 256 mod 16)) (String (hexdig (n / 16 mod 16)) (s1 (hexdig (n mod 16)))))).
(** [longest_zero_sequence]: the first of the longest runs of zeros, if it has two of them; its start and its end. *)
Definition finish_run (i : nat) (start : option nat) (longest : option (nat * nat)) : option (nat * nat) :=
  match start with
  | None => longest
  | Some s => match longest with
              | Some (_, n) => if Nat.ltb n (i - s) then Some (s, i - s) else longest
              | None => Some (s, i - s)
              end
  end.
Fixpoint zero_runs (i : nat) (start : option nat) (longest : option (nat * nat)) (l : list N) : option (nat * nat) :=
  match l with
  | [] => finish_run i start longest
  | x :: r => if N.eqb x 0 then zero_runs (S i) (match start with None => Some i | Some s => Some s end) longest r
              else zero_runs (S i) None (finish_run i start longest) r
  end.
Definition longest_zeros (l : list N) : option (nat * nat) :=
  match zero_runs 0 None None l with
  | Some (s, n) => if Nat.ltb n 2 then None else Some (s, s + n)
  | None => None
  end.
(** [write_ipv6]. *)
Definition print_pieces (l : list N) : string :=
  match longest_zeros l with
  | None => join ":" (map hex_piece l)
  | Some (s, e) => join ":" (map hex_piece (firstn s l)) +:+ "::" +:+ join ":" (map hex_piece (skipn e l))
  end.
Definition web_ipv6 (s : string) : option string := option_map print_pieces (pieces s).

(* ------------------------------------------------------------ IPv4 *)
(** [parse_ipv4number]: [None] if it is none; [Some None] if it is too large. *)
Fixpoint radix_val (radix : N) (acc : N) (s : string) : option N :=
  match s with
  | EmptyString => Some acc
  | String c r => match hex_val c with
                  | Some d => if (d <? radix)%N then radix_val radix (radix * acc + d) r else None
                  | None => None
                  end
  end.
Definition ipv4_number (s : string) : option (option N) :=
  match s with
  | EmptyString => None
  | _ =>
      let (radix, t) := match s with
                        | String c (String d r) =>
                            if Ascii.eqb c "0" then if Ascii.eqb d "x" || Ascii.eqb d "X" then (16%N, r) else (8%N, String d r)
                            else (10%N, s)
                        | _ => (10%N, s)
                        end in
      match radix_val radix 0 t with
      | Some v => Some (if (v <? 4294967296)%N then Some v else None)
      | None => None
      end
  end.
(** [ends_in_a_number]. *)
Definition number_label (s : string) : bool := nonempty_digits s || match ipv4_number s with Some _ => true | None => false end.
Definition ends_in_number (s : string) : bool :=
  match rev (split_all "." s) with
  | EmptyString :: l :: _ => number_label l
  | EmptyString :: [] => false
  | l :: _ => number_label l
  | [] => false
  end.
(** [parse_ipv4addr]. *)
Fixpoint numbers (l : list string) : option (list N) :=
  match l with
  | [] => Some []
  | s :: r => match ipv4_number s, numbers r with Some (Some n), Some ns => Some (n :: ns) | _, _ => None end
  end.
Fixpoint shifted (k : N) (l : list N) : N :=
  match l with [] => 0 | n :: r => n * 256 ^ k + shifted (k - 1) r end%N.
Definition ipv4_parts (s : string) : list string :=
  match rev (split_all "." s) with EmptyString :: r => rev r | l => rev l end.
Definition ipv4_addr (s : string) : option N :=
  let parts := ipv4_parts s in
  if Nat.ltb 4 (length parts) then None
  else match numbers parts with
  | None => None
  | Some l =>
      match rev l with
      | [] => None
      | z :: before =>
          let before := rev before in
          if (z <? 256 ^ (4 - N.of_nat (length before)))%N && forallb (fun n => (n <=? 255)%N) before
          then Some (z + shifted 3 before)%N else None
      end
  end.
(** [Display] of [Ipv4Addr]. *)
Definition print_ipv4 (n : N) : string :=
  join "." (map dec_N [n / 16777216; n / 65536 mod 256; n / 256 mod 256; n mod 256]%N).

(* ------------------------------------------------------------ domains *)
(** [percent_decode]. *)
Fixpoint pct_dec (s : string) : string :=
  match s with
  | EmptyString => EmptyString
  | String c r =>
      if Ascii.eqb c "%" then
        match r with
        | String h (String l r') =>
            match unhex h, unhex l with
            | Some x, Some y => String (chr (16 * x + y)) (pct_dec r')
            | _, _ => String c (pct_dec r)
            end
        | _ => String c (pct_dec r)
        end
      else String c (pct_dec r)
  end.
Definition ascii_only (s : string) : bool := str_all (fun c => (byte c <? 128)%N) s.
Definition has_ace (s : string) : bool := existsb (starts_with "xn--") (split_all "." (lowered s)).
Definition forbidden_domain (c : ascii) : bool := (byte c <=? 32)%N || (byte c =? 127)%N || has_char c "%#/:<>?@[\]^|".

Section Domain.
(** External: [idna::domain_to_ascii] on the names with international labels. *)
Variable idna : string -> option string.
Definition to_ascii (d : string) : option string :=
  if ascii_only d && negb (has_ace d) then
    if str_all (fun c => negb (forbidden_domain c)) (lowered d) then Some (lowered d) else None
  else idna d.
(** [Host::parse] of what is not in brackets. *)
Definition web_domain (s : string) : option string :=
  match to_ascii (pct_dec s) with
  | None => None
  | Some d => if String.eqb d EmptyString then None
              else if ends_in_number d then option_map print_ipv4 (ipv4_addr d) else Some d
  end.
End Domain.
