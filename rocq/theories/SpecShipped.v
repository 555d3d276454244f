(** Specification vocabulary for the example wallet as it is shipped. *)
From Verif Require Import Base Json JsonText Base64 Formats Dcql Response ExMatcher SpecRequest SpecExample.

(** The name occurs once, with that value; or not at all. *)
Definition occurs (k : string) (m : list (string * json)) (vs : list json) : Prop :=
  map snd (filter (fun kv => String.eqb (fst kv) k) m) = vs.
Definition says (k : string) (m : list (string * json)) (s : string) : Prop := occurs k m [JStr s].
Definition may_say (k : string) (m : list (string * json)) (o : option string) : Prop :=
  match o with Some s => says k m s | None => occurs k m [] \/ occurs k m [JNull] end.
Definition may_be (j : json) (o : option string) : Prop := match o with Some s => j = JStr s | None => j = JNull end.
(** The JSON of the file for a credential: an object, in which other members do not matter, or an array of the six fields. *)
Definition described (j : json) (c : credential) : Prop :=
  exists m fmt claims,
    j = JObj m /\ says "id" m (mc_id c) /\ says "format" m fmt /\ mc_format c = from_name fmt
    /\ may_say "vct" m (mc_vct c) /\ may_say "doctype" m (mc_doctype c) /\ says "raw_credential" m (mc_raw c)
    /\ occurs "claims" m [claims] /\ normalize claims = JObj (mc_claims c).
Definition enumerated (j : json) (c : credential) : Prop :=
  exists fmt vct doctype claims,
    j = JArr [JStr (mc_id c); JStr fmt; vct; doctype; JStr (mc_raw c); claims] /\ mc_format c = from_name fmt
    /\ may_be vct (mc_vct c) /\ may_be doctype (mc_doctype c) /\ normalize claims = JObj (mc_claims c).
Definition describes (j : json) (c : credential) : Prop := described j c \/ enumerated j c.
(** The entries of a credential file: the array that is its one member "credentials", or its one element. *)
Definition entries_are (s : string) (l : list json) : Prop :=
  (exists m, parse_raw s = Some (JObj m) /\ occurs "credentials" m [JArr l]) \/ parse_raw s = Some (JArr [JArr l]).

(** The disclosures of an SD-JWT: what stands between its '~'s. *)
Definition disclosures (s : string) : list string := removelast (tl (split_all "~" s)).
(** The name of the claim that a disclosure [salt, name, value] reveals. *)
Definition reveals (disclosure name : string) : Prop :=
  exists t salt v, b64url_decode disclosure = Some t /\ json_of_text t = Some (JArr [salt; JStr name; v]).
(** A disclosure [salt, name, value] reveals this value. *)
Definition reveals_value (disclosure name : string) (v : json) : Prop :=
  exists t salt, b64url_decode disclosure = Some t /\ json_of_text t = Some (JArr [salt; JStr name; v]).

(** What the shipped credential answers: an SD-JWT query that lists its type; or lists none, asks for no document type and
    requires only its claims. *)
Definition shipped_type : string := "https://credentials.example.com/pid/1.0".
Definition shipped_claims : list string := ["given_name"; "family_name"; "nationality"; "age_over_18"].
Definition asks_shipped (q : cred_query) : Prop :=
  cq_format q = DcSdJwt
  /\ (lists_types q /\ lists_type q shipped_type
      \/ ~ lists_types q /\ (forall d, ~ asks_doctype q d) /\ forall n, requires_claim q n -> In n shipped_claims).
