(** Specification vocabulary for what stands on the console of the command line verifier. *)
From Verif Require Import Base Json ExConsole ExCliWeb ExPrint.

Definition line_feed : ascii := "010".
(** A line of a text: what stands between two line ends, or between one and the beginning or the end. *)
Definition line_in (line text : string) : Prop :=
  exists before after,
    text = before +:+ line +:+ after
    /\ (forall x y, line <> x +:+ String line_feed y)
    /\ (before = EmptyString \/ exists x, before = x +:+ String line_feed EmptyString)
    /\ (after = EmptyString \/ exists y, after = String line_feed y).

(** The calls of [println!] so far.  Calls made for different requests can come in any order, and some may still be to come. *)
Definition calls_of (l : list kentry) (calls : list string) : Prop :=
  forall c, In c calls -> exists e, In e l /\ In c (prints e).

(** The lines that the program itself composes. *)
Definition messages : list string :=
  [""; "========================================";
   "[*] Status: WAITING FOR WALLET";
   "[*] Status: REQUEST FETCHED"; "[*] Wallet retrieved the authorization request"; "[*] Waiting for presentation submission...";
   "[*] Status: PROCESSING RESPONSE"; "[*] Verifying presentation...";
   "[+] Status: SUCCESS"; "Verification completed successfully!";
   "[-] Status: FAILED"; "Verification failed: Encrypted responses (direct_post.jwt) not supported in this example";
   "[*] Verification complete. Shutting down..."; "[*] Interrupted. Shutting down..."].
(** A line of indented JSON with an object at the top. *)
Definition json_line (line : string) : Prop :=
  exists rest, line = String "{" rest \/ line = String " " (String " " rest) \/ line = String "}" rest.
