(** Specification vocabulary for sequences of calls on a JWE builder. *)
From Verif Require Import Base Json JsonText Jwe.

(** The setters of [JweBuilder], jwe.rs:44-91. *)
Inductive jwe_call :=
| PayloadIs (j : json) | KeyIs (k : obj) | KeyJsonIs (j : json) | AlgIs (a : string) | EncIs (e : string) | KidIs (k : string).
Definition jwe_do (jwk_ok : obj -> bool) (r : res jwe_builder) (c : jwe_call) : res jwe_builder :=
  let? b := r in
  match c with
  | PayloadIs j => Ok (jb_set_payload j b)
  | KeyIs k => Ok (jb_set_key k b)
  | KeyJsonIs j => jb_set_key_json jwk_ok j b
  | AlgIs a => Ok (jb_set_alg a b)
  | EncIs e => Ok (jb_set_enc e b)
  | KidIs k => Ok (jb_set_kid k b)
  end.
(** [JweBuilder::new()], the calls in order (the first failing one ends them), and [build()]. *)
Definition jwe_session (jwk_ok : obj -> bool) (encrypt : obj -> obj -> obj -> res string) (calls : list jwe_call) : res string :=
  let? b := fold_left (jwe_do jwk_ok) calls (Ok jb_new) in jwe_build encrypt b.

(** What a call sets. *)
Definition as_payload (c : jwe_call) (j : json) : Prop := c = PayloadIs j.
Definition as_key (c : jwe_call) (k : obj) : Prop := c = KeyIs k \/ exists j, c = KeyJsonIs j /\ json_of_text (jprint j) = Some (JObj k).
Definition as_alg (c : jwe_call) (a : string) : Prop := c = AlgIs a.
Definition as_enc (c : jwe_call) (e : string) : Prop := c = EncIs e.
Definition as_kid (c : jwe_call) (k : string) : Prop := c = KidIs k.
(** The latest call of a kind set this value; no call of that kind. *)
Definition latest {A} (sets : jwe_call -> A -> Prop) (calls : list jwe_call) (x : A) : Prop :=
  exists before c after, calls = before ++ c :: after /\ sets c x /\ forall c' y, In c' after -> ~ sets c' y.
Definition never {A} (sets : jwe_call -> A -> Prop) (calls : list jwe_call) : Prop := forall c y, In c calls -> ~ sets c y.
(** Every key given as JSON is an acceptable key. *)
Definition keys_accepted (jwk_ok : obj -> bool) (calls : list jwe_call) : Prop :=
  forall j, In (KeyJsonIs j) calls -> exists k, json_of_text (jprint j) = Some (JObj k) /\ jwk_ok k = true.
