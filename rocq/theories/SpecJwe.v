(** Specification vocabulary for encrypted responses. *)
From Verif Require Import Base Json JsonText Response Request SpecRequest.

(** A key usable for encryption: ECDH-ES on P-256, and not marked for another use. *)
Definition encryption_key (k : obj) : Prop :=
  text_at "alg" k "ECDH-ES" /\ text_at "crv" k "P-256" /\ forall u, text_at "use" k u -> u = "enc".
Definition first_key (keys : list obj) (k : obj) : Prop :=
  exists a b, keys = a ++ k :: b /\ encryption_key k /\ forall k', In k' a -> ~ encryption_key k'.

(** The optional text of a member. *)
Definition maybe_text (n : string) (k : obj) (o : option string) : Prop :=
  match o with Some s => text_at n k s | None => forall s, ~ text_at n k s end.

(** An object given by its members. *)
Definition object_is (o : obj) (f : string -> option json) : Prop :=
  keys_sorted o = true /\ forall n, obj_get n o = f n.
Definition jwe_members (enc : string) (kid : option string) : string -> option json := fun n =>
  if String.eqb n "typ" then Some (JStr "JWT")
  else if String.eqb n "alg" then Some (JStr "ECDH-ES")
  else if String.eqb n "enc" then Some (JStr enc)
  else if String.eqb n "kid" then option_map JStr kid
  else None.

(** Registered claims have their registered types. *)
Definition registered_types (claims : obj) : Prop :=
  forall k v, In (k, v) claims ->
    (In k ["iss"; "sub"; "jti"] -> exists s, v = JStr s)
    /\ (k = "aud" -> (exists s, v = JStr s) \/ exists l, v = JArr (map JStr l))
    /\ (In k ["exp"; "nbf"; "iat"] -> exists z, v = JInt z /\ (0 <= z)%Z).

(** The JSON object of a token: one member per credential query id, in any iteration order. *)
Definition item_value (i : vp_item) : json := match i with VpString s => JStr s | VpObject m => JObj m end.
Definition token_json (v : json) (t : vp_token) : Prop :=
  exists m, v = JObj m /\ keys_sorted m = true
    /\ forall id j, In (id, j) m <-> exists l, In (id, l) t /\ j = JArr (map item_value l).
Definition claims_of (claims : obj) (t : vp_token) (st : option string) : Prop :=
  exists v, token_json v t
    /\ object_is claims (fun n => if String.eqb n "vp_token" then Some v
                                  else if String.eqb n "state" then option_map JStr st else None).

(** Keys as they come out of a JSON parser. *)
Definition parsed_key (k : obj) : Prop := jwf (JObj k) = true /\ jdepth (JObj k) <= 127.
