(** Specification vocabulary: under which name each typed parameter is held, and which JSON value denotes it. *)
From Coq Require Import Sorting.Permutation.
From Verif Require Import Base Json Url Object Formats Params Dcql Response SpecDcql.

(** A parameter held under [key]: [R v t] says that the JSON value [v] is read as [t], [W t v] that [t] is written as
    [v], for the values satisfying [ok].  Reading succeeds exactly on the values [R] relates; an absent member is told
    from an unreadable one; writing sets that member and no other. *)
Definition held_as {T} (P : tparam T) (key : string) (R : json -> T -> Prop) (W : T -> json -> Prop) (ok : T -> Prop) : Prop :=
  (forall o t, uo_get P o = Some (Ok t) <-> exists v, obj_get key o = Some v /\ R v t)
  /\ (forall o, uo_get P o = None <-> obj_get key o = None)
  /\ (forall o t, ok t -> exists v, W t v
        /\ forall k, obj_get k (fst (uo_insert P t o)) = if String.eqb k key then Some v else obj_get k o).
(** The same for a parameter that is a map, whose entries have no order. *)
Definition held_as_map {A} (P : tparam (list A)) (key : string) (R : json -> list A -> Prop) (ok : list A -> Prop) : Prop :=
  (forall o v t, obj_get key o = Some v -> jsorted v = true ->
     (uo_get P o = Some (Ok t) -> R v t)
     /\ (R v t -> exists t', uo_get P o = Some (Ok t') /\ Permutation t t'))
  /\ (forall o, uo_get P o = None <-> obj_get key o = None)
  /\ (forall o t, ok t -> exists v, R v t
        /\ forall k, obj_get k (fst (uo_insert P t o)) = if String.eqb k key then Some v else obj_get k o).

(** Written as the value that is read back. *)
Definition as_read {T} (R : json -> T -> Prop) (t : T) (v : json) : Prop := R v t.
Definition always {T} (_ : T) : Prop := True.
Definition is_texts : json -> list string -> Prop := is_list is_text.
Definition is_object (j : json) (o : obj) : Prop := j = JObj o.
Definition is_any (j j' : json) : Prop := j = j'.

(** Enumerations: the listed names, or any other text. *)
Definition named {T} (known : list (string * T)) (other : string -> T) (j : json) (t : T) : Prop :=
  exists s, j = JStr s /\ (In (s, t) known \/ t = other s /\ ~ In s (map fst known)).
Definition is_mode : json -> response_mode -> Prop :=
  named [("direct_post", DirectPost); ("direct_post.jwt", DirectPostJwt); ("dc_api", DcApi); ("dc_api.jwt", DcApiJwt)] UnsupportedMode.
Definition is_type : json -> response_type -> Prop :=
  named [("vp_token", RtVpToken); ("vp_token id_token", RtVpTokenIdToken)] UnsupportedType.
Definition is_method (j : json) (m : uri_method) : Prop := j = JStr "get" /\ m = MGet \/ j = JStr "post" /\ m = MPost.
Definition is_url (parse : string -> option url) (j : json) (u : url) : Prop := exists s, j = JStr s /\ parse s = Some u.

(** A key set is an object (or the array of its one member) whose member "keys" is a list of objects. *)
Definition is_key_set (j : json) (ks : list obj) : Prop :=
  exists m, members_in ["keys"] j m /\ required (is_list is_object) "keys" m ks.

(** Per format: the algorithms, the proof types, or anything else. *)
Definition is_payload (j : json) (p : payload) : Prop :=
  let single k := exists l, j = JObj [(k, JArr (map JStr l))] in
  match p with
  | AlgValues l => j = JObj [("alg_values", JArr (map JStr l))]
  | ProofTypeValues l => j = JObj [("proof_type_values", JArr (map JStr l))]
  | OtherPayload j' => j' = j /\ ~ single "alg_values" /\ ~ single "proof_type_values"
  end.
Definition is_formats (j : json) (f : format_map) : Prop :=
  exists m, j = JObj m /\ NoDup (map fst f)
    /\ forall d p, In (d, p) f <-> exists k v, obj_get k m = Some v /\ is_format (JStr k) d /\ is_payload v p.

(** A VP token: for each credential query id a list of presentations, each text or an object. *)
Definition is_presentation (j : json) (i : vp_item) : Prop :=
  match i with VpString s => j = JStr s | VpObject m => j = JObj m end.
Definition is_token (j : json) (t : vp_token) : Prop :=
  exists m, j = JObj m /\ NoDup (map fst t)
    /\ (forall id v, obj_get id m = Some v -> exists l, is_list is_presentation v l)
    /\ forall id l, In (id, l) t <-> exists v, obj_get id m = Some v /\ is_list is_presentation v l.

(** A claim format given as an object with one member named after it; anything else is kept as it is. *)
Definition format_member (k : string) (v : json) (c : claim_format) : Prop :=
  let texts name l := exists m, members_in [name] v m /\ required is_texts name m l in
  match c with
  | CfJwtVcJson l => k = "jwt_vc_json" /\ texts "alg_values_supported" l
  | CfLdpVc l => k = "ldp_vc" /\ texts "proof_type" l
  | CfMsoMDoc j => k = "mso_mdoc" /\ j = v
  | CfDcSdJwt j => k = "dc+sd-jwt" /\ j = v
  | CfOther _ => False
  end.
Definition is_claim_format (j : json) (c : claim_format) : Prop :=
  (exists k v, j = JObj [(k, v)] /\ format_member k v c)
  \/ c = CfOther j /\ forall k v c', j = JObj [(k, v)] -> ~ format_member k v c'.
