(** Specification vocabulary for submitting responses. *)
From Verif Require Import Base Utf8 Json JsonText Url Params Effects Request Response SpecRequest SpecResponse.

(** The UTF-8 encodings of the characters with the Unicode White_Space property. *)
Definition bytes (l : list N) : string := fold_right (fun n s => String (chr n) s) EmptyString l.
Definition white_space : list string :=
  map (fun n => bytes [n]) [9; 10; 11; 12; 13; 32]%N
  ++ map (fun n => bytes [194%N; n]) [133; 160]%N
  ++ [bytes [225; 154; 128]%N]
  ++ map (fun n => bytes [226%N; 128%N; n])
       [128; 129; 130; 131; 132; 133; 134; 135; 136; 137; 138; 168; 169; 175]%N
  ++ [bytes [226; 129; 159]%N; bytes [227; 128; 128]%N].
Definition blank (s : string) : Prop :=
  exists l, (forall c, In c l -> In c white_space) /\ s = fold_right String.append EmptyString l.

(** The kind of response a mode asks for. *)
Definition kind_matches (m : response_mode) (r : auth_response) : Prop :=
  match m, r with
  | DirectPost, Unencoded _ => True
  | DirectPostJwt, Jwt _ => True
  | _, _ => False
  end.
Definition posts (m : response_mode) : Prop := m = DirectPost \/ m = DirectPostJwt.

(** A form POST to the URI. *)
Definition form_post (uri body : string) : http_req :=
  mk_req "POST" uri [("Prefer", "OID4VP-1.0.0"); ("content-type", "application/x-www-form-urlencoded")] body.

(** A response that the form encoding can carry. *)
Definition sendable (r : auth_response) : Prop :=
  match r with
  | Unencoded u => token_ok (ur_vp_token u) /\ nested_at_most 125 (ur_vp_token u) /\ state_ok (ur_state u)
  | Jwt j => utf8_valid j = true
  end.

(** What a 2xx answer tells the wallet to do next. *)
Definition no_redirect (body : string) : Prop :=
  blank body
  \/ (exists j, json_of_text body = Some j
      /\ forall m s, j = JObj m -> obj_get "redirect_uri" m <> Some (JStr s)).
Definition redirects_to (url_parse : string -> option url) (body : string) (u : url) : Prop :=
  exists m s, json_of_text body = Some (JObj m) /\ obj_get "redirect_uri" m = Some (JStr s)
    /\ url_parse s = Some u.
