(** Specification vocabulary for what the library writes to the log. *)
From Verif Require Import Base Json Object Request X509 LibLog SpecRequest SpecVerify SpecJwe.

(** Why a key of the verifier is not used, in the words of the log. *)
Inductive not_used_because (k : obj) : string -> Prop :=
| for_no_alg : maybe_text "alg" k None -> not_used_because k "JWK missing required 'alg' parameter, skipping"
| for_alg a : text_at "alg" k a -> a <> "ECDH-ES" -> not_used_because k ("JWK has unsupported alg '" +:+ a +:+ "', skipping")
| for_no_crv : text_at "alg" k "ECDH-ES" -> maybe_text "crv" k None -> not_used_because k "JWK missing 'crv' parameter, skipping"
| for_crv c : text_at "alg" k "ECDH-ES" -> text_at "crv" k c -> c <> "P-256" ->
    not_used_because k ("JWK has unsupported curve '" +:+ c +:+ "', skipping")
| for_use u : text_at "alg" k "ECDH-ES" -> text_at "crv" k "P-256" -> text_at "use" k u -> u <> "enc" ->
    not_used_because k ("JWK has use='" +:+ u +:+ "', not suitable for encryption").
(** One entry for each of the keys, in order, with its reason. *)
Definition explained (keys : list obj) (es : list entry) : Prop :=
  Forall2 (fun k e => exists m, not_used_because k m /\ e = (Debug, m)) keys es.
(** The warning that goes with a key that does not say what it is for. *)
Definition unmarked (k : obj) (es : list entry) : Prop :=
  text_at "use" k "enc" /\ es = []
  \/ maybe_text "use" k None /\ es = [(Warn, "JWK missing 'use' parameter, assuming it can be used for encryption")].

(** What a certificate's alternative names are made of: names, and extensions that cannot be read. *)
Inductive item := Unreadable (x : extension) | Named (g : general_name).
Definition items_of (x : extension) : list item := match x_names x with Some l => map Named l | None => [Unreadable x] end.
Inductive items_in : list extension -> list item -> Prop :=
| items_none : items_in [] []
| items_other x l r : x_id x <> "2.5.29.17" -> items_in l r -> items_in (x :: l) r
| items_san x l r : x_id x = "2.5.29.17" -> items_in l r -> items_in (x :: l) (items_of x ++ r).
(** What the log says of one of them, when it is compared with the name [w]. *)
Inductive says_of (show_name : general_name -> string) (show_problem : extension -> string) (w : string) : item -> entry -> Prop :=
| of_unreadable x : says_of show_name show_problem w (Unreadable x) (Debug, "unable to parse SubjectAlternativeName from DER: " +:+ show_problem x)
| of_other k t : says_of show_name show_problem w (Named (OtherName k t)) (Debug, "found non-DNS SAN: " +:+ show_name (OtherName k t))
| of_dns d : says_of show_name show_problem w (Named (DnsName d)) (Debug, "comparing SAN '" +:+ d +:+ "' to client_id '" +:+ w +:+ "'").
