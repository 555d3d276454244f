(** Whoever does not know a session id learns and changes nothing (C127) *)
From Coq Require Import Lia Permutation.
From Verif Require Import Base BaseFacts Utf8 Json Url Request Metadata Dcql Response Session StoreFacts Client Builder Server ExVerifier.
From Verif Require Import SpecSession SpecServer SpecBuilder SpecVerifierEx UuidFacts RandomId SpecRandomId PfBuilder PfServer PfExServer PfRandomId SpecGuess.
From Verif Require Import PfGuess.

(** C127: if the requests of the second party, in a world without the first, are not about the session of the first, then with the
    first there everything done for the second is the same; everything done for the first, and its session, is as in a world
    without the second. *)
Theorem c127_apart :
  forall (url_parse : string -> option url) (jwe_open : string -> res string) (a : adapter) (u : uuid) (first second : strategy) (turns : list bool),
    keeps_to u first ->
    (forall h, In h (pt_sent (wo_second (game url_parse jwe_open a nobody second turns))) -> about h <> Some u) ->
    let x := game url_parse jwe_open a first second turns in
    wo_second x = wo_second (game url_parse jwe_open a nobody second turns)
    /\ wo_first x = wo_first (game url_parse jwe_open a first nobody turns)
    /\ st_get u (wo_store x) = st_get u (wo_store (game url_parse jwe_open a first nobody turns)).
Proof. exact c127_apart_pf. Qed.
Print Assumptions c127_apart.

Example c127_apart_witness :
  let x := toy_game (owner 6) (guesser 5) toy_turns in
  keeps_to (new_v4 6) (owner 6)
  /\ (forall h, In h (pt_sent (wo_second (toy_game nobody (guesser 5) toy_turns))) -> about h <> Some (new_v4 6))
  /\ last_found (wo_first x) = Some true /\ last_found (wo_second x) = Some false /\ st_get (new_v4 6) (wo_store x) <> None.
Proof. exact c127_apart_ex. Qed.

(** C127: whoever does not know the identifier of a session learns nothing about it and changes nothing in it, whatever they send, as
    often, as concurrently and as adaptively as they like, unless they happen to name it: with the session under the identifier of a random
    word, this happens for at most a fraction of q / 2^122 of the words when they send q requests. *)
Theorem c127_stranger :
  forall (url_parse : string -> option url) (jwe_open : string -> res string) (a : adapter) (first : N -> strategy) (second : strategy)
         (turns : list bool) (words : list N),
    (forall w, keeps_to (new_v4 w) (first w)) ->
    NoDup words ->
    (forall w, In w words -> word w
       /\ let x := game url_parse jwe_open a (first w) second turns in
          ~ (wo_second x = wo_second (game url_parse jwe_open a nobody second turns)
             /\ wo_first x = wo_first (game url_parse jwe_open a (first w) nobody turns)
             /\ st_get (new_v4 w) (wo_store x) = st_get (new_v4 w) (wo_store (game url_parse jwe_open a (first w) nobody turns)))) ->
    (count words * 2 ^ 122 <= count (pt_sent (wo_second (game url_parse jwe_open a nobody second turns))) * 2 ^ 128)%N.
Proof. exact c127_stranger_pf. Qed.
Print Assumptions c127_stranger.

Example c127_stranger_witness :
  (forall w, keeps_to (new_v4 w) (owner w)) /\ NoDup [5%N] /\ word 5
  /\ last_found (wo_second (toy_game (owner 5) (guesser 5) toy_turns)) = Some true
  /\ last_found (wo_second (toy_game nobody (guesser 5) toy_turns)) = Some false
  /\ count (pt_sent (wo_second (toy_game nobody (guesser 5) toy_turns))) = 1%N.
Proof. exact c127_stranger_ex. Qed.

(** C127: the two parties use the server of C94: what they do together is an execution of it. *)
Theorem c127_server :
  forall (url_parse : string -> option url) (jwe_open : string -> res string) (a : adapter) (first second : strategy) (turns : list bool),
    let x := game url_parse jwe_open a first second turns in
    exists y, hreachable url_parse jwe_open a y /\ hs_store y = wo_store x
      /\ Permutation (hs_tasks y) (pt_tasks (wo_first x) ++ pt_tasks (wo_second x))
      /\ merged (pt_log (wo_first x)) (pt_log (wo_second x)) (hs_log y).
Proof. exact c127_server_pf. Qed.
Print Assumptions c127_server.

Example c127_server_witness :
  let x := toy_game (owner 6) (guesser 5) toy_turns in length (pt_log (wo_first x)) = 2 /\ length (pt_log (wo_second x)) = 2.
Proof. exact c127_server_ex. Qed.

(** C127: and a single party can bring about every execution of the server: nothing a stranger could do is left out. *)
Theorem c127_power :
  forall (url_parse : string -> option url) (jwe_open : string -> res string) (a : adapter) (y : hsys),
    hreachable url_parse jwe_open a y ->
    exists (second : strategy) (turns : list bool),
      let x := game url_parse jwe_open a nobody second turns in
      wo_store x = hs_store y /\ pt_tasks (wo_second x) = hs_tasks y /\ pt_log (wo_second x) = hs_log y.
Proof. exact c127_power_pf. Qed.
Print Assumptions c127_power.

Example c127_power_witness : exists y, hreachable simple_parse toy_open (toy_adapter true) y /\ length (hs_log y) = 4.
Proof. exact c127_power_ex. Qed.
