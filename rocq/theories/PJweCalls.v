(** Sequences of calls on a JWE builder (C48) *)
From Verif Require Import Base BaseFacts Json JsonText Jwe SpecRequest SpecJwe SpecJweCalls PfJwe.
From Verif Require Import PfJweCalls.

(** C48: whatever calls are made on a new builder and in whatever order, [build] gives a JWE exactly when every key given as JSON was
    acceptable and the latest payload, key and algorithm set are an object with typed registered claims, any key, and ECDH-ES; the
    header then carries the latest enc set (A128GCM if none was) and the latest key id set (the key's own if none was). *)
Theorem c48_calls : forall jwk_ok encrypt calls jwe,
  jwe_session jwk_ok encrypt calls = Ok jwe <->
  keys_accepted jwk_ok calls
  /\ exists claims key header enc kid,
       latest as_payload calls (JObj claims) /\ registered_types claims
       /\ latest as_key calls key /\ latest as_alg calls "ECDH-ES"
       /\ (latest as_enc calls enc \/ (never as_enc calls /\ enc = "A128GCM"))
       /\ ((exists k, latest as_kid calls k /\ kid = Some k) \/ (never as_kid calls /\ maybe_text "kid" key kid))
       /\ object_is header (jwe_members enc kid)
       /\ encrypt header claims key = Ok jwe.
Proof. exact c48_calls_pf. Qed.
Print Assumptions c48_calls.

Example c48_calls_witness :
  jwe_session (fun _ => true) (fun h c k => Ok (jprint (JArr [JObj h; JObj c])))
    [KidIs "old"; PayloadIs (JObj [("a", JNull)]); AlgIs "dir"; KeyJsonIs (JObj [("kid", JStr "k")]); AlgIs "ECDH-ES"; EncIs "A256GCM"; PayloadIs (JObj [("b", JNull)]); KidIs "new"]
  = Ok "[{""alg"":""ECDH-ES"",""enc"":""A256GCM"",""kid"":""new"",""typ"":""JWT""},{""b"":null}]"
  /\ is_ok (jwe_session (fun _ => true) (fun h c k => Ok "") [PayloadIs (JObj []); KeyIs []; KeyJsonIs (JArr []); AlgIs "ECDH-ES"]) = false.
Proof. exact c48_calls_ex. Qed.
