(** Which texts name a session (C78) *)
From Coq Require Import Lia ZArith.
From Verif Require Import Base BaseFacts Base64 JsonText Builder ExVerifier UuidFacts SpecWebUrl SpecHost HostFacts SpecIds.
From Verif Require Import PfIds.

(** C78: the texts that name a session: thirty-two hexadecimal digits of either case, alone or grouped with hyphens, and the
    grouped form also in braces or as a URN; the session is the one with the number that the digits denote. *)
Theorem c78_texts : forall (s : string) (u : N), uuid_of_string s = Some u <-> identifier s u.
Proof. exact c78_texts_pf. Qed.
Print Assumptions c78_texts.

Example c78_texts_witness :
  map uuid_of_string ["67e5504410b1426f9247bb680e5fe0c8"; "67e55044-10b1-426f-9247-bb680e5fe0c8"; "{67e55044-10b1-426f-9247-bb680e5fe0c8}";
                      "urn:uuid:67e55044-10b1-426f-9247-bb680e5fe0c8"]
  = repeat (Some 0x67e5504410b1426f9247bb680e5fe0c8%N) 4
  /\ map uuid_of_string ["67e55044-10b1426f-9247-bb680e5fe0c8-"; "URN:UUID:67e55044-10b1-426f-9247-bb680e5fe0c8"; ""] = [None; None; None].
Proof. exact c78_texts_ex. Qed.
