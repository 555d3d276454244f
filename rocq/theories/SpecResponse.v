(** Specification vocabulary for authorization responses. *)
From Verif Require Import Base Utf8 Json JsonText UrlEncoded Spec Response SpecRequest.

(** What the typed API can hold: texts are valid UTF-8, embedded objects are JSON maps, credential query
    ids are distinct. *)
Definition item_ok (i : vp_item) : Prop :=
  match i with VpString s => utf8_valid s = true | VpObject m => jwf (JObj m) = true end.
Definition token_ok (t : vp_token) : Prop :=
  NoDup (map fst t)
  /\ forall id items, In (id, items) t -> utf8_valid id = true /\ forall i, In i items -> item_ok i.
Definition state_ok (s : option string) : Prop := forall x, s = Some x -> utf8_valid x = true.

(** No embedded object is nested deeper than [n]. *)
Definition nested_at_most (n : nat) (t : vp_token) : Prop :=
  forall id items m, In (id, items) t -> In (VpObject m) items -> jdepth (JObj m) <= n.

(** One presentation as JSON: text, or an object (of repeated members the last one counts). *)
Definition item_json (j : json) (i : vp_item) : Prop :=
  match i with
  | VpString s => j = JStr s
  | VpObject m => exists m0, j = JObj m0 /\ normalize (JObj m0) = JObj m
  end.
Definition items_json (j : json) (l : list vp_item) : Prop :=
  exists js, j = JArr js /\ Forall2 item_json js l.

(** The text is a JSON object whose members are all lists of presentations, and [t] has, for each id, the
    list of that id's last member. *)
Definition token_text (text : string) (t : vp_token) : Prop :=
  exists m, parse_raw text = Some (JObj m)
    /\ (forall k v, In (k, v) m -> exists l, items_json v l)
    /\ NoDup (map fst t)
    /\ (forall id l, In (id, l) t <->
          exists a v b, m = a ++ (id, v) :: b /\ ~ In id (map fst b) /\ items_json v l).

(** The name occurs not at all, or exactly once. *)
Definition optional (k : string) (o : option string) (l : list (string * string)) : Prop :=
  match o with None => ~ In k (map fst l) | Some v => single k v l end.

(** Characters of an encoded name or value: none of them is '&', '=' or a space. *)
Definition value_chars (s : string) : Prop :=
  has_char "&" s = false /\ has_char "=" s = false /\ has_char " " s = false.
