(** Specification vocabulary for the URLs the HTTP client takes. *)
From Coq Require Import Ascii.
From Verif Require Import Base Url SpecWebUrl.

(** An IPv6 address is printed with at most seven colons (eight groups). *)
Definition eight_groups (ipv6 : string -> option string) : Prop :=
  forall s a, ipv6 s = Some a -> count_occ ascii_dec (chars a) ":"%char <= 7.
(** Characters the URL standard allows in a domain and RFC 3986 does not. *)
Definition plain_host_name (u : url) : Prop :=
  forall a c, u_auth u = Some a -> In c (chars a) -> ~ In c (chars """`{}").
Definition at_most (n : N) (u : url) : Prop := (N.of_nat (String.length (url_str u)) <= n)%N.
