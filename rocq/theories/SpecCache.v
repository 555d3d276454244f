(** Vocabulary for the certificate cache of the example verifier. *)
From Verif Require Import Base Utf8 Json JsonText Base64 ExCache.

(** The name occurs once, with that text. *)
Definition sole (k : string) (m : list (string * json)) (v : string) : Prop :=
  map snd (filter (fun kv => String.eqb (fst kv) k) m) = [JStr v].
(** What a cache file says: an object with the three members, each of them once, or an array of the three texts. *)
Definition file_says (content domain cert key : string) : Prop :=
  utf8_valid content = true
  /\ ((exists m, parse_raw content = Some (JObj m) /\ sole "domain" m domain /\ sole "cert_der_b64" m cert /\ sole "key_pkcs8_b64" m key)
      \/ parse_raw content = Some (JArr [JStr domain; JStr cert; JStr key])).

(** The name of the file for a domain: its labels with underscores between them. *)
Definition named (domain file : string) : Prop :=
  exists labels, labels <> [] /\ (forall l, In l labels -> has_char "." l = false)
    /\ domain = join "." labels /\ file = join "_" labels +:+ ".json".

Section Spec.
  Context {Cert Key : Type}.
  Variable from_der : string -> option Cert.
  Variable to_der : Cert -> option string.
  Variable from_pkcs8 : string -> option Key.

  Notation state es := (history from_der to_der from_pkcs8 es).
  Notation verifiers es := (cs_verifiers (state es)).

  (** Key, certificate and its encoding all come from this one generation. *)
  Definition of_one_generation (g : generated) (o : @outcome Cert Key) : Prop :=
    exists der p, g = Some (der, p) /\
      from_pkcs8 p = Some (fst (fst o)) /\ from_der der = Some (snd (fst o)) /\ to_der (snd (fst o)) = Some (snd o).
  Definition can_generate (g : generated) : Prop := exists o, of_one_generation g o.

  (** The file gives this outcome for the domain: it names the domain and has a certificate and a key, in Base64. *)
  Definition gives (content domain : string) (o : @outcome Cert Key) : Prop :=
    exists p, file_says content domain (b64std_encode (snd o)) (b64std_encode p)
      /\ from_pkcs8 p = Some (fst (fst o)) /\ from_der (snd o) = Some (snd (fst o)).

  (** A decoded certificate is read back from its own encoding. *)
  Definition reencodes : Prop :=
    forall der x d, from_der der = Some x -> to_der x = Some d -> from_der d = Some x.

  (** Still using its file. *)
  Definition busy (v : @verifier Cert Key) : Prop := v_todo v <> Nothing.
  (** No verifier is started while another one is writing the same file. *)
  Definition one_at_a_time (es : list event) : Prop :=
    forall before after d rd g, es = before ++ EStart d rd g :: after ->
    forall v, In v (verifiers before) -> cache_file (v_domain v) = cache_file d -> ~ busy v.
  (** Each write takes all of the text at once. *)
  Definition whole_writes (es : list event) : Prop :=
    forall before after i n, es = before ++ EWrite i n :: after ->
    forall v off text, nth_error (verifiers before) i = Some v -> v_todo v = Rest off text -> String.length text <= n.
  (** Domains are text. *)
  Definition domains_ok (es : list event) : Prop :=
    forall d rd g, In (EStart d rd g) es -> utf8_valid d = true.

  (** Nothing is started for a different domain with the same file name. *)
  Definition no_clash (d : string) (es : list event) : Prop :=
    forall d' rd g, In (EStart d' rd g) es -> cache_file d' = cache_file d -> d' = d.
  (** No file is found unreadable. *)
  Definition readable_for (d : string) (es : list event) : Prop :=
    forall rd g, In (EStart d rd g) es -> rd = true.
End Spec.
