(** [serde_json::to_string_pretty] (external crate serde_json 1.0, ser.rs [PrettyFormatter] with two spaces), as used by
    /repo/examples/verifier-conformance-adapter/server/state.rs:228 and /repo/examples/cli-verifier/main.rs:663. *)
From Verif Require Import Base Json JsonText.

Definition newline : string := s1 (chr 10).

(** A value whose own line is indented by [ind].  Empty arrays and objects stay on one line. *)
Fixpoint jpretty (ind : string) (j : json) : string :=
  let deeper := ind +:+ "  " in
  match j with
  | JArr [] => "[]"
  | JArr l => "[" +:+ join "," (map (fun x => newline +:+ deeper +:+ jpretty deeper x) l) +:+ newline +:+ ind +:+ "]"
  | JObj [] => "{}"
  | JObj m =>
      "{" +:+ join "," (map (fun kv => newline +:+ deeper +:+ print_str (fst kv) +:+ ": " +:+ jpretty deeper (snd kv)) m)
        +:+ newline +:+ ind +:+ "}"
  | _ => jprint j
  end.
