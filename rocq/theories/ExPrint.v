(** What the command line verifier prints while it runs: /repo/examples/cli-verifier/main.rs:636-676 and 780-797.  Its log
    (tracing) is not modelled. *)
From Verif Require Import Base Json JsonPretty ExConsole ExCliWeb.

Definition rule : string := "========================================".
(** [print_status_update], main.rs:636-676: the arguments of its [println!] calls, in order. *)
Definition print_status (d : display) : list string :=
  match d with
  | DInitializing => ["[*] Initializing..."]
  | DWaiting => ["[*] Status: WAITING FOR WALLET"]
  | DFetched =>
      [""; "[*] Status: REQUEST FETCHED"; "[*] Wallet retrieved the authorization request";
       "[*] Waiting for presentation submission..."]
  | DReceived => [""; "[*] Status: PROCESSING RESPONSE"; "[*] Verifying presentation..."]
  | DSuccess info =>
      [""; rule; "[+] Status: SUCCESS"; rule; ""; "Verification completed successfully!"; ""; jpretty "" info; ""]
  | DFailed reason =>
      [""; rule; "[-] Status: FAILED"; rule; ""; "Verification failed: " +:+ reason; ""]
  end.
(** The end, main.rs:788-795. *)
Definition print_completed : list string := [""; "[*] Verification complete. Shutting down..."].
Definition print_interrupted : list string := [""; "[*] Interrupted. Shutting down..."].
(** What an entry of the history prints.  A server that fails (main.rs:782-787) only logs; the model does not tell it from an interruption. *)
Definition prints (e : kentry) : list string :=
  match e with
  | KFor _ (KShown d) => print_status d
  | KCompleted => print_completed
  | KInterrupted => print_interrupted
  | _ => []
  end.
(** [println!]: each call writes its text and a newline at once (standard output is locked for the call). *)
Fixpoint console (calls : list string) : string :=
  match calls with [] => EmptyString | c :: r => c +:+ newline +:+ console r end.
