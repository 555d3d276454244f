(** Specification vocabulary for the example wallet. *)
From Coq Require Import ZArith.
From Verif Require Import Base Json JsonText Base64 Sha256 Formats Dcql Effects Url Request Response ExMatcher SpecRequest SpecJwe.

(** Same format; for formats outside the known ones, up to case. *)
Definition same_format (lower : string -> string) (f g : designation) : Prop :=
  f = g \/ exists a b, f = OtherFormat a /\ g = OtherFormat b /\ lower a = lower b.

(** The credential query lists types, this type; it asks for this document type; it requires this claim. *)
Definition lists_types (q : cred_query) : Prop := exists l, obj_get "vct_values" (cq_meta q) = Some (JArr l).
Definition lists_type (q : cred_query) (v : string) : Prop :=
  exists l, obj_get "vct_values" (cq_meta q) = Some (JArr l) /\ In (JStr v) l.
Definition asks_doctype (q : cred_query) (d : string) : Prop := text_at "doctype_value" (cq_meta q) d.
Definition requires_claim (q : cred_query) (n : string) : Prop :=
  exists l c, cq_claims q = Some l /\ In c l /\ In (PeStr n) (cl_path c) /\ has_char "." n = false.

(** The credential has the format of the query and meets its first kind of restriction. *)
Definition satisfies (lower : string -> string) (q : cred_query) (c : credential) : Prop :=
  same_format lower (mc_format c) (cq_format q)
  /\ (lists_types q -> exists v, mc_vct c = Some v /\ lists_type q v)
  /\ (~ lists_types q -> forall d, asks_doctype q d -> mc_doctype c = Some d)
  /\ (~ lists_types q -> (forall d, ~ asks_doctype q d) ->
      forall n, requires_claim q n -> exists v, In (n, v) (mc_claims c)).

(** A POST of form fields to a URL. *)
Definition wallet_post (u : url) (body : string) : http_req :=
  mk_req "POST" (url_str u) [("Content-Type", "application/x-www-form-urlencoded")] body.
(** The HTTP POSTs among the requests. *)
Definition posts (l : list http_req) : list http_req := filter (fun r => String.eqb (rq_method r) "POST") l.

(** A key binding JWT for [sd]: header, payload and signature over both. *)
Definition key_bound (sign : string -> string) (now : Z) (sd nonce audience kb : string) : Prop :=
  exists h p hb pb header claims,
    kb = h +:+ "." +:+ p +:+ "." +:+ b64url_encode (sign (h +:+ "." +:+ p))
    /\ has_char "." h = false /\ has_char "." p = false
    /\ b64url_decode h = Some hb /\ json_of_text hb = Some (JObj header)
    /\ object_is header (fun n => if String.eqb n "alg" then Some (JStr "ES256")
                                  else if String.eqb n "typ" then Some (JStr "kb+jwt") else None)
    /\ b64url_decode p = Some pb /\ json_of_text pb = Some (JObj claims)
    /\ object_is claims (fun n => if String.eqb n "nonce" then Some (JStr nonce)
                                  else if String.eqb n "aud" then Some (JStr audience)
                                  else if String.eqb n "iat" then Some (JInt now)
                                  else if String.eqb n "sd_hash" then Some (JStr (b64url_encode (sha256 sd)))
                                  else None).
(** How a stored credential is presented: what follows its last '~' becomes a key binding JWT over the rest. *)
Definition presented (sign : string -> string) (now : Z) (nonce audience raw : string) (i : vp_item) : Prop :=
  has_char "~" raw = false /\ i = VpString raw
  \/ exists sd old kb, raw = sd +:+ "~" +:+ old /\ has_char "~" old = false
       /\ i = VpString (sd +:+ "~" +:+ kb) /\ key_bound sign now (sd +:+ "~") nonce audience kb.

(** The client is named in the request object, or not at all. *)
Definition audience_of (o : obj) (aud : string) : Prop :=
  text_at "client_id" o aud \/ absent "client_id" o /\ aud = "unknown-verifier".

(** A clock value in the range of JSON's integers. *)
Definition clock_ok (now : Z) : Prop := int_ok now = true.

(** An SD-JWT PID. *)
Definition is_pid (c : credential) : Prop := mc_format c = DcSdJwt /\ mc_vct c = Some "urn:eudi:pid:1".
