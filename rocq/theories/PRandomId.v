(** Fresh identifiers are version 4 UUIDs, evenly distributed (C126) *)
From Coq Require Import Lia.
From Verif Require Import Base JsonText BaseFacts Json Url Request Metadata Dcql Response Session StoreFacts Client Builder Server AnyStore ExVerifier.
From Verif Require Import SpecSession SpecServer SpecBuilder SpecStore SpecAtomic UuidFacts RandomId SpecRandomId PfBuilder PfServer PfAnyStore SpecAnyAtomic PfAnyAtomic.
From Verif Require Import PfRandomId.

Local Open Scope N_scope.

(** C126: a fresh identifier is a version 4 UUID, any version 4 UUID can be one, and its text reads back. *)
Theorem c126_shape :
  (forall w, version4 (new_v4 w) /\ uuid_of_string (uuid_str (new_v4 w)) = Some (new_v4 w)
     /\ String.get 14 (fresh_nonce w) = Some "4"%char
     /\ (exists c, String.get 19 (fresh_nonce w) = Some c /\ In c ["8"; "9"; "a"; "b"]%char))
  /\ (forall u, version4 u -> exists w, word w /\ new_v4 w = u)
  /\ forall w w', fresh_nonce w = fresh_nonce w' -> new_v4 w = new_v4 w'.
Proof. exact c126_shape_pf. Qed.
Print Assumptions c126_shape.

Example c126_shape_witness :
  fresh_nonce 0 = "00000000-0000-4000-8000-000000000000" /\ fresh_nonce (2 ^ 128 - 1) = "ffffffff-ffff-4fff-bfff-ffffffffffff"
  /\ fresh_nonce 0x0123456789abcdef0123456789abcdef = "01234567-89ab-4def-8123-456789abcdef".
Proof. exact c126_shape_ex. Qed.

(** C126: with random words, any two version 4 UUIDs are equally likely. *)
Theorem c126_likely :
  forall u u', version4 u -> version4 u' ->
    exists exchange : N -> N,
      (forall w, exchange (exchange w) = w) /\ (forall w, word w -> word (exchange w))
      /\ forall w, new_v4 w = u <-> new_v4 (exchange w) = u'.
Proof. exact c126_likely_pf. Qed.
Print Assumptions c126_likely.

Example c126_likely_witness : version4 (new_v4 0) /\ version4 (new_v4 1) /\ new_v4 0 <> new_v4 1.
Proof. exact c126_likely_ex. Qed.

(** C126: of the 2^128 random words, at most 2^6 lead to an identifier among each one guessed: whoever names [g] identifiers meets a
    fresh one with probability at most g / 2^122. *)
Theorem c126_guesses :
  forall (guesses : list uuid) (hits : list N),
    NoDup hits -> (forall w, In w hits -> word w /\ In (new_v4 w) guesses) -> count hits * 2 ^ 122 <= count guesses * 2 ^ 128.
Proof. exact c126_guesses_pf. Qed.
Print Assumptions c126_guesses.

Example c126_guesses_witness :
  let hits := [1; 1 + 2 ^ 62; 1 + 2 ^ 77] in
  NoDup hits /\ forall w, In w hits -> word w /\ In (new_v4 w) [new_v4 1].
Proof. exact c126_guesses_ex. Qed.

(** C126: of the sequences of [n] random words, at most a fraction of n (n - 1) / 2^123 leads to two equal identifiers. *)
Theorem c126_collisions :
  forall (n : nat) (draws : list (list N)),
    NoDup draws -> (forall d, In d draws -> length d = n /\ Forall word d /\ ~ NoDup (map new_v4 d)) ->
    count draws * 2 ^ 123 <= N.of_nat n * (N.of_nat n - 1) * (2 ^ 128) ^ N.of_nat n.
Proof. exact c126_collisions_pf. Qed.
Print Assumptions c126_collisions.

Example c126_collisions_witness :
  let draws := [[1; 1]; [1; 1 + 2 ^ 62]] in
  NoDup draws /\ forall d, In d draws -> length d = 2%nat /\ Forall word d /\ ~ NoDup (map new_v4 d).
Proof. exact c126_collisions_ex. Qed.

(** C126: the library's methods store a request under a fresh identifier, change no other session, and return that identifier. *)
Theorem c126_build :
  forall (url_parse : string -> option url) (w : N) (b : request_builder) (contended : bool) (m m' : store) (u : uuid),
    (forall wm dest, build_fresh url_parse w b wm contended m = (m', Ok (u, dest)) ->
       u = new_v4 w /\ (exists s, st_get u m' = Some s /\ s_uuid s = u) /\ forall u', u' <> u -> st_get u' m' = st_get u' m)
    /\ (forall jwt, build_dc_api_fresh url_parse w b contended m = (m', Ok (u, jwt)) ->
       u = new_v4 w /\ (exists s, st_get u m' = Some s /\ s_uuid s = u) /\ forall u', u' <> u -> st_get u' m' = st_get u' m).
Proof. exact c126_build_pf. Qed.
Print Assumptions c126_build.

Example c126_build_witness :
  (exists m' u dest, build_fresh simple_parse 8 (toy_builder false toy_client) toy_wm false [] = (m', Ok (u, dest)))
  /\ uuid_str (new_v4 8) = "00000000-0000-4000-8000-000000000008".
Proof. exact c126_build_ex. Qed.

(** C126: a fresh request takes the place of a stored session for at most 2^6 words for each of them. *)
Theorem c126_replaced :
  forall (m : store) (words : list N),
    NoDup words -> (forall w, In w words -> word w /\ st_get (new_v4 w) m <> None) -> count words * 2 ^ 122 <= count m * 2 ^ 128.
Proof. exact c126_replaced_pf. Qed.
Print Assumptions c126_replaced.

Example c126_replaced_witness :
  exists m words, NoDup words /\ words <> [] /\ forall w, In w words -> word w /\ st_get (new_v4 w) m <> None.
Proof. exact c126_replaced_ex. Qed.

(** C126: calls with fresh identifiers that do not collide give no two requests the same identifier: C122 and C125 apply, whatever
    the interleaving and the session store. *)
Theorem c126_apart :
  forall (url_parse : string -> option url) (S : Type) (st : session_store S) (m0 : S) (y : any_sys S) (words : nat -> N),
    any_reachable url_parse S st m0 y ->
    (forall i c e u, In (i, (c, e)) (an_log y) -> builds c u -> u = new_v4 (words i)) ->
    NoDup (map new_v4 (map words (seq 0 (an_started y)))) ->
    ids_apart (map snd (an_log y)).
Proof. exact c126_apart_pf. Qed.
Print Assumptions c126_apart.

(** Two requests under fresh identifiers, stored in the journal of PfAnyStore.v. *)
Example c126_apart_witness :
  exists y (words : nat -> N), any_reachable simple_parse _ journal [] y
    /\ (forall i c e u, In (i, (c, e)) (an_log y) -> builds c u -> u = new_v4 (words i))
    /\ NoDup (map new_v4 (map words (seq 0 (an_started y)))) /\ an_started y = 2%nat /\ length (an_log y) = 2%nat.
Proof. exact c126_apart_ex. Qed.
