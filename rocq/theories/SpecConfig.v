(** Specification vocabulary for configuring a verifier and its clients. *)
From Verif Require Import Base Json JsonText Base64 Url Object Params Metadata Dcql Request Jwt Session X509 Client Builder SpecRequest SpecVerify
  SpecVerifierEx.

(** What the calls of a sequence last said about something: [x] comes from the last call that says anything. *)
Definition latest {A B : Type} (says : A -> option B) (calls : list A) (x : option B) : Prop :=
  match x with
  | Some b => exists before call after, calls = before ++ call :: after /\ says call = Some b
                /\ forall later, In later after -> says later = None
  | None => forall call, In call calls -> says call = None
  end.

(** The calls of the verifier builder, and what each says. *)
Inductive setting :=
| WithClient (c : client)
| WithStore
| WithSubmission (u : url)
| ByReferenceAt (u : url)
| InTheUrl
| WithDefault (name : string) (value : json).
Definition says_client (x : setting) : option client := match x with WithClient c => Some c | _ => None end.
Definition says_submission (x : setting) : option url := match x with WithSubmission u => Some u | _ => None end.
Definition says_conveyance (x : setting) : option (option url) :=
  match x with ByReferenceAt u => Some (Some u) | InTheUrl => Some None | _ => None end.
Definition says_default (n : string) (x : setting) : option json :=
  match x with WithDefault n' v => if String.eqb n n' then Some v else None | _ => None end.

(** The builder call that a setting stands for.  A default of type [T] stands for its name and JSON value. *)
Definition makes (x : setting) (call : verifier_builder -> verifier_builder) : Prop :=
  match x with
  | WithClient c => call = vb_with_client c
  | WithStore => call = vb_with_store
  | WithSubmission u => call = vb_with_submission u
  | ByReferenceAt u => call = vb_by_reference u
  | InTheUrl => call = vb_by_value
  | WithDefault n v => exists (T : Type) (P : tparam T) (t : T), call = vb_with_default P t /\ tp_key P = n /\ tp_to P t = Ok v
  end.
(** The same for a request. *)
Inductive choice := WithQuery (q : dcql) | WithParameter (name : string) (value : json).
Definition says_query (x : choice) : option dcql := match x with WithQuery q => Some q | _ => None end.
Definition says_parameter (n : string) (x : choice) : option json :=
  match x with WithParameter n' v => if String.eqb n n' then Some v else None | _ => None end.
Definition chooses (x : choice) (call : request_builder -> request_builder) : Prop :=
  match x with
  | WithQuery q => call = rb_with_dcql q
  | WithParameter n v => exists (T : Type) (P : tparam T) (t : T), call = rb_with_param P t /\ tp_key P = n /\ tp_to P t = Ok v
  end.

(** A JWT with exactly the given protected header and the payload, signed over both. *)
Definition signed_jwt {key : Type} (s : signer key) (jwt : string) (header : list (string * json)) (payload : json) : Prop :=
  exists h h64 p64 s64,
    members_are h header /\ compact jwt h64 p64 s64
    /\ b64url_decode h64 = Some (jprint h) /\ b64url_decode p64 = Some (jprint payload)
    /\ b64url_decode s64 = Some (sg_sign s (h64 +:+ "." +:+ p64)).
