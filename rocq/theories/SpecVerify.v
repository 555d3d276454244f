(** Specification vocabulary for the verification of signed request objects. *)
From Verif Require Import Base Json JsonText Base64 Sha256 Url Params Metadata Request X509 SpecRequest.

(** [jwt] is the compact JWS [h64.p64.s64]. *)
Definition compact (jwt h64 p64 s64 : string) : Prop :=
  jwt = h64 +:+ "." +:+ p64 +:+ "." +:+ s64 /\ has_char "." h64 = false /\ has_char "." p64 = false.

(** The first part is the base64url encoding of JSON text that denotes the object [h]. *)
Definition header_text (h64 : string) (h : obj) : Prop :=
  exists text, b64url_decode h64 = Some text /\ json_of_text text = Some (JObj h).

(** The payload: base64url encoded, unless the header says it is not. *)
Definition payload_text (encoded : bool) (p64 text : string) : Prop :=
  if encoded then b64url_decode p64 = Some text else p64 = text.

(** The wallet lists [alg] among its request object signing algorithms. *)
Definition alg_supported (wm : wallet_metadata) (alg : string) : Prop :=
  exists algs, obj_get "request_object_signing_alg_values_supported" (wm_obj wm) = Some (JArr (map JStr algs))
    /\ In alg algs.

(** The client identifier is [name] with the prefix, or [name] itself when it does not have the prefix. *)
Definition names (prefix client_id name : string) : Prop :=
  client_id = prefix +:+ ":" +:+ name
  \/ client_id = name /\ ~ exists rest, client_id = prefix +:+ ":" +:+ rest.

Fixpoint equals_signs (n : nat) : string :=
  match n with O => EmptyString | S n => String "=" (equals_signs n) end.
(** The first certificate of the x5c header is the base64 encoding of [der], with any padding. *)
Definition first_certificate (h : obj) (der : string) : Prop :=
  exists n rest, obj_get "x5c" h = Some (JArr (JStr (b64_encode Std false der +:+ equals_signs n) :: rest)).

(** [text] contains [sub]. *)
Definition contains (sub text : string) : Prop := exists a b, text = a +:+ sub +:+ b.
