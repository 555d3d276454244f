(** The certificate cache of the example verifier:
    /repo/examples/verifier-conformance-adapter/server/state.rs lines 38-41, 60-66 and 155-268.
    Several verifiers may use the cache directory at the same time, and each may stop at any point. *)
From Verif Require Import Base Utf8 Json JsonText JsonPretty Base64.

(** state.rs:158 [domain.replace('.', "_")]. *)
Fixpoint underscored (s : string) : string :=
  match s with
  | EmptyString => EmptyString
  | String c r => String (if Ascii.eqb c "." then "_"%char else c) (underscored r)
  end.
(** state.rs:157-158: the file inside CACHE_DIR.  A domain comes from [Url::host_str] (state.rs:74-77), so it has no slash. *)
Definition cache_file (domain : string) : string := underscored domain +:+ ".json".

(** [BASE64_STANDARD.decode] (crate base64, external): padding must be present and canonical. *)
Definition b64std_decode (s : string) : option string :=
  let t := trim_end "=" s in
  if (Nat.modulo (String.length s) 4 =? 0)%nat && (String.length s - String.length t <=? 2)%nat then b64_decode Std t else None.

(** state.rs:60-68 [CachedCredentials]. *)
Record cached := Cached { ca_domain : string; ca_cert : string; ca_key : string }.

(** state.rs:222-228: the fields in the order of the declaration. *)
Definition cached_json (domain cert_der key_pkcs8 : string) : json :=
  JObj [("domain", JStr domain); ("cert_der_b64", JStr (b64std_encode cert_der)); ("key_pkcs8_b64", JStr (b64std_encode key_pkcs8))].
Definition cache_text (domain cert_der key_pkcs8 : string) : string := jpretty "" (cached_json domain cert_der key_pkcs8).

(** The derived [Deserialize] of a struct of three strings: an object with each field once (other members are ignored),
    or an array of the three. *)
Definition once (k : string) (m : list (string * json)) : option string :=
  match filter (fun kv => String.eqb (fst kv) k) m with
  | [(_, JStr v)] => Some v
  | _ => None
  end.
Definition cached_of_text (s : string) : option cached :=
  match parse_raw s with
  | Some (JObj m) =>
      match once "domain" m, once "cert_der_b64" m, once "key_pkcs8_b64" m with
      | Some d, Some c, Some k => Some (Cached d c k)
      | _, _, _ => None
      end
  | Some (JArr [JStr d; JStr c; JStr k]) => Some (Cached d c k)
  | _ => None
  end.

Section Cache.
  Context {Cert Key : Type}.
  (** External: [Certificate::from_der], [Certificate::to_der], [SigningKey::from_pkcs8_der]. *)
  Variable from_der : string -> option Cert.
  Variable to_der : Cert -> option string.
  Variable from_pkcs8 : string -> option Key.

  Definition outcome : Type := Key * Cert * string.

  (** state.rs:186-207 [load_cached_cert], given what the file holds.  Log lines are not modelled. *)
  Definition load (content domain : string) : option outcome :=
    if utf8_valid content then
      match cached_of_text content with
      | Some c =>
          if String.eqb (ca_domain c) domain then
            match b64std_decode (ca_key c) with
            | Some p =>
                match from_pkcs8 p, b64std_decode (ca_cert c) with
                | Some k, Some der => match from_der der with Some x => Some (k, x, der) | None => None end
                | _, _ => None
                end
            | None => None
            end
          else None
      | None => None
      end
    else None.

  (** state.rs:235-268 [generate_cert]: rcgen's result for this run, if it made one (DER of the certificate, PKCS#8 of the key). *)
  Definition generated : Type := option (string * string).
  Definition generate (g : generated) : option (Key * Cert * string) :=
    match g with
    | Some (der, p) =>
        match from_der der, from_pkcs8 p with
        | Some x, Some k => Some (k, x, p)
        | _, _ => None
        end
    | None => None
    end.

  (** What a running verifier still has to do with its file: create it (which empties it), write the rest of the text from
      an offset on, or nothing. *)
  Inductive todo := Create (text : string) | Rest (offset : nat) (text : string) | Nothing.

  (** A verifier that was started. *)
  Record verifier := Started {
    v_domain : string; v_generated : generated; v_outcome : option outcome; v_todo : todo }.

  Definition files : Type := list (string * string).
  Fixpoint file_get (n : string) (fs : files) : option string :=
    match fs with [] => None | (m, c) :: r => if String.eqb m n then Some c else file_get n r end.
  Definition file_set (n c : string) (fs : files) : files := (n, c) :: fs.

  (** state.rs:156-183 [get_or_generate_cert] up to the write: the outcome is settled before anything is written, since a
      failure to write only logs (178-180).  [readable]: whether [exists] and [read_to_string] succeed on the file. *)
  Definition start (fs : files) (domain : string) (readable : bool) (g : generated) : verifier :=
    let loaded := match file_get (cache_file domain) fs with
                  | Some content => if readable then load content domain else None
                  | None => None
                  end in
    match loaded with
    | Some o => Started domain g (Some o) Nothing
    | None =>
        match generate g with
        | Some (k, x, p) =>
            match to_der x with
            | Some der => Started domain g (Some (k, x, der)) (Create (cache_text domain der p))
            | None => Started domain g None Nothing
            end
        | None => Started domain g None Nothing
        end
    end.

  (** [write(2)] at an offset: a gap reads as zero bytes, what lies behind stays. *)
  Fixpoint zeros (n : nat) : string := match n with O => EmptyString | S m => String (chr 0) (zeros m) end.
  Fixpoint str_take (n : nat) (s : string) : string :=
    match n, s with S m, String c r => String c (str_take m r) | _, _ => EmptyString end.
  Fixpoint str_drop (n : nat) (s : string) : string :=
    match n, s with S m, String _ r => str_drop m r | _, _ => s end.
  Definition write_at (off : nat) (chunk content : string) : string :=
    str_take off (content +:+ zeros off) +:+ chunk +:+ str_drop (off + String.length chunk) content.

  Record cache_state := CState { cs_files : files; cs_verifiers : list verifier }.

  Inductive event :=
  | EStart (domain : string) (readable : bool) (g : generated)
  | ECreate (i : nat)            (* [File::create] inside [fs::write], state.rs:229 *)
  | EWrite (i n : nat)           (* one [write] call inside [write_all] that takes at most [n] bytes *)
  | EStop (i : nat).             (* the write fails, or the verifier is killed *)

  Definition with_todo (v : verifier) (t : todo) : verifier := Started (v_domain v) (v_generated v) (v_outcome v) t.
  Fixpoint set_nth (i : nat) (v : verifier) (l : list verifier) : list verifier :=
    match l, i with
    | [], _ => []
    | _ :: r, O => v :: r
    | x :: r, S j => x :: set_nth j v r
    end.

  Definition step (s : cache_state) (e : event) : cache_state :=
    match e with
    | EStart d rd g => CState (cs_files s) (cs_verifiers s ++ [start (cs_files s) d rd g])
    | ECreate i =>
        match nth_error (cs_verifiers s) i with
        | Some v =>
            match v_todo v with
            | Create text => CState (file_set (cache_file (v_domain v)) "" (cs_files s)) (set_nth i (with_todo v (Rest 0 text)) (cs_verifiers s))
            | _ => s
            end
        | None => s
        end
    | EWrite i n =>
        match nth_error (cs_verifiers s) i with
        | Some v =>
            match v_todo v, file_get (cache_file (v_domain v)) (cs_files s) with
            | Rest off text, Some content =>
                let chunk := str_take n text in
                let rest := str_drop n text in
                CState (file_set (cache_file (v_domain v)) (write_at off chunk content) (cs_files s))
                  (set_nth i (with_todo v (match rest with EmptyString => Nothing | _ => Rest (off + String.length chunk) rest end)) (cs_verifiers s))
            | _, _ => s
            end
        | None => s
        end
    | EStop i =>
        match nth_error (cs_verifiers s) i with
        | Some v => CState (cs_files s) (set_nth i (with_todo v Nothing) (cs_verifiers s))
        | None => s
        end
    end.
  Definition history (es : list event) : cache_state := fold_left step es (CState [] []).
End Cache.
