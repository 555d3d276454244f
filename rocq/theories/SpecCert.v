(** Specification vocabulary for the names in a certificate. *)
From Verif Require Import Base X509.

(** The certificate has [d] as a DNS name: in a subject alternative name extension that can be decoded. *)
Definition certified (c : cert) (d : string) : Prop :=
  exists e l, In e (c_extensions c) /\ x_id e = "2.5.29.17" /\ x_names e = Some l /\ In (DnsName d) l.

(** All its DNS names, in the order of the extensions and of the names in each. *)
Inductive dns_of : list general_name -> list string -> Prop :=
| dns_nil : dns_of [] []
| dns_name d l r : dns_of l r -> dns_of (DnsName d :: l) (d :: r)
| dns_other k v l r : dns_of l r -> dns_of (OtherName k v :: l) r.
Inductive dns_in : list extension -> list string -> Prop :=
| in_none : dns_in [] []
| in_san e l n es r : x_id e = "2.5.29.17" -> x_names e = Some l -> dns_of l n -> dns_in es r -> dns_in (e :: es) (n ++ r)
| in_skip e es r : x_id e <> "2.5.29.17" \/ x_names e = None -> dns_in es r -> dns_in (e :: es) r.
Definition dns_names (c : cert) (l : list string) : Prop := dns_in (c_extensions c) l.

(** For examples: a certificate with these DNS names, in two extensions, among other extensions and names. *)
Definition named (l : list string) (spki : string) : cert :=
  mk_cert [mk_ext "2.5.29.15" true None;
           mk_ext "2.5.29.17" false (Some (OtherName 1 "mail@v.example" :: map DnsName (firstn 1 l)));
           mk_ext "2.5.29.18" false (Some [DnsName "issuer.example"]);
           mk_ext "2.5.29.17" true None;
           mk_ext "2.5.29.17" true (Some (map DnsName (skipn 1 l) ++ [OtherName 6 "https://v.example/"]))] spki.
