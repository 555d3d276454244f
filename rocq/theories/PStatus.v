(** the JSON form of statuses (C93) *)
From Verif Require Import Base Utf8 Json JsonText Serde Session StatusJson SpecStatus JsonFacts BaseFacts JsonTextFacts PfText.
From Verif Require Import PfStatus.

(** C93: which text is which status: exactly the JSON texts that name a waiting status, or give the outcome of a complete
    one with its one field. *)
Theorem c93_reads
  : forall (text : string) (st : status),
    status_of_text text = Ok st <-> exists j, parse_raw text = Some j /\ tells_status j st.
Proof. exact c93_reads_pf. Qed.
Print Assumptions c93_reads.

Example c93_reads_witness :
  status_of_text "{""Complete"": {""Failure"": {""note"": 1, ""reason"": ""no""}}}" = Ok (Complete (OFailure "no"))
  /\ status_of_text "{""SentRequest"": null}" = Ok SentRequest
  /\ is_ok (status_of_text "{""Complete"": {""Failure"": {""reason"": ""a"", ""reason"": ""b""}}}") = false
  /\ is_ok (status_of_text "{""Complete"": ""Success""}") = false.
Proof. exact c93_reads_ex. Qed.

(** C93: a status written as JSON text is read back as the same status, with its cause, reason or information, as long as
    the information is nested at most 124 deep; deeper information cannot be read back at all. *)
Theorem c93_roundtrip
  : forall st : status, proper st ->
    (info_depth st <= 124 -> status_of_text (status_to_text st) = Ok st)
    /\ (124 < info_depth st -> forall st', status_of_text (status_to_text st) <> Ok st').
Proof. exact c93_roundtrip_pf. Qed.
Print Assumptions c93_roundtrip.

Example c93_roundtrip_witness :
  let st := Complete (OSuccess (JObj [("credentials_received", JInt 1)])) in
  proper st /\ info_depth st = 1
  /\ status_to_text st = "{""Complete"":{""Success"":{""info"":{""credentials_received"":1}}}}".
Proof. exact c93_roundtrip_ex. Qed.

(** C93: statuses that differ in anything, also in what [==] ignores, have different texts. *)
Theorem c93_faithful
  : forall st st' : status, proper st -> proper st' -> status_to_text st = status_to_text st' -> st = st'.
Proof. exact c93_faithful_pf. Qed.
Print Assumptions c93_faithful.

Example c93_faithful_witness :
  status_eqb (Complete (OFailure "a")) (Complete (OFailure "b")) = true
  /\ status_to_text (Complete (OFailure "a")) <> status_to_text (Complete (OFailure "b")).
Proof. exact c93_faithful_ex. Qed.
