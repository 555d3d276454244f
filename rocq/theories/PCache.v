(** The cached certificate (C101) *)
From Coq Require Import Lia Arith.
From Verif Require Import Base BaseFacts Utf8 Utf8Facts Json JsonFacts JsonText JsonTextFacts JsonPretty SpecJsonText GrammarFacts PfGrammar PrettyFacts
  Base64 Base64Facts ExCache SpecCache CacheFacts.
From Verif Require Import PfCache.

(** C101: Whatever verifiers are started and wherever they stop, each one's key, certificate and encoded certificate come from one and the same
    generation, made for its own domain by it or an earlier verifier, as long as verifiers sharing a file run one at a time, or each write is done at once. *)
Theorem c101_pair : forall (Cert Key : Type) from_der to_der from_pkcs8 es i (v : @verifier Cert Key) o,
  reencodes from_der to_der -> domains_ok es ->
  one_at_a_time from_der to_der from_pkcs8 es \/ whole_writes from_der to_der from_pkcs8 es ->
  nth_error (cs_verifiers (history from_der to_der from_pkcs8 es)) i = Some v -> v_outcome v = Some o ->
  exists j w, j <= i /\ nth_error (cs_verifiers (history from_der to_der from_pkcs8 es)) j = Some w /\ v_domain w = v_domain v
    /\ of_one_generation from_der to_der from_pkcs8 (v_generated w) o.
Proof. exact c101_pair_pf. Qed.
Print Assumptions c101_pair.

Example c101_pair_witness : one_at_a_time Some Some Some toy_cut /\ domains_ok toy_cut /\
  outcomes toy_cut = [Some ("key1", "cert1", "cert1"); Some ("key2", "cert2", "cert2"); Some ("key2", "cert2", "cert2")].
Proof. exact c101_pair_ex. Qed.

(** C101: Once a verifier has its certificate and was not stopped before its file was written, every later verifier for that domain gets the same,
    when they run one at a time, can read the file, and no other domain uses the same file name. *)
Theorem c101_stable : forall (Cert Key : Type) from_der to_der from_pkcs8 es i j (v w : @verifier Cert Key) o,
  reencodes from_der to_der -> domains_ok es -> one_at_a_time from_der to_der from_pkcs8 es ->
  no_clash (v_domain v) es -> readable_for (v_domain v) es -> ~ In (EStop i) es -> i < j ->
  nth_error (cs_verifiers (history from_der to_der from_pkcs8 es)) i = Some v ->
  nth_error (cs_verifiers (history from_der to_der from_pkcs8 es)) j = Some w ->
  v_domain w = v_domain v -> v_outcome v = Some o -> v_outcome w = Some o.
Proof. exact c101_stable_pf. Qed.
Print Assumptions c101_stable.

(** From the second verifier of [toy_cut] on, all agree. *)
Example c101_stable_witness : one_at_a_time Some Some Some toy_cut /\ no_clash "v.example" toy_cut /\ readable_for "v.example" toy_cut /\ ~ In (EStop 1) toy_cut
  /\ nth_error (outcomes toy_cut) 1 = nth_error (outcomes toy_cut) 2.
Proof. exact c101_stable_ex. Qed.

(** C101: A verifier that can generate a certificate always gets one, whatever the file holds and whatever happened before. *)
Theorem c101_recovers : forall (Cert Key : Type) (from_der : string -> option Cert) to_der (from_pkcs8 : string -> option Key) es d rd g,
  can_generate from_der to_der from_pkcs8 g ->
  exists v o, nth_error (cs_verifiers (history from_der to_der from_pkcs8 (es ++ [EStart d rd g]))) (length (cs_verifiers (history from_der to_der from_pkcs8 es))) = Some v
    /\ v_domain v = d /\ v_outcome v = Some o.
Proof. exact c101_recovers_pf. Qed.
Print Assumptions c101_recovers.

Example c101_recovers_witness : can_generate (Some (A:=string)) Some (Some (A:=string)) (Some ("cert", "key"))
  /\ outcomes ([toy_start "v.example" "cert1" "key1"; ECreate 0] ++ [EStart "v.example" true (Some ("cert", "key"))]) = [Some ("key1", "cert1", "cert1"); Some ("key", "cert", "cert")].
Proof. exact c101_recovers_ex. Qed.

(** C101: Whatever is in the cache directory, a verifier takes what the file of its domain gives, if that is a readable text with domain, certificate and
    key each given once, for this very domain; in every other case it uses what it generates. *)
Theorem c101_reads : forall (Cert Key : Type) (from_der : string -> option Cert) to_der (from_pkcs8 : string -> option Key) (fs : files) d rd g o,
  let usable o' := rd = true /\ exists content, file_get (cache_file d) fs = Some content /\ gives from_der from_pkcs8 content d o' in
  v_outcome (start from_der to_der from_pkcs8 fs d rd g) = Some o <->
  usable o \/ (forall o', ~ usable o') /\ of_one_generation from_der to_der from_pkcs8 g o.
Proof. exact c101_reads_pf. Qed.
Print Assumptions c101_reads.

Example c101_reads_witness :
  let f content := v_outcome (@start string string Some Some Some [("v_example.json", content)] "v.example" true (Some ("new", "own"))) in
  f "{""cert_der_b64"":""Y2VydA=="",""key_pkcs8_b64"":""a2V5"",""domain"":""v.example"",""x"":0}" = Some ("key", "cert", "cert")
  /\ f "[""v.example"", ""Y2VydA=="", ""a2V5""]" = Some ("key", "cert", "cert")
  /\ f "{""cert_der_b64"":""Y2VydA=="",""key_pkcs8_b64"":""a2V5"",""domain"":""v.example"",""domain"":""v.example""}" = Some ("own", "new", "new")
  /\ f "{""cert_der_b64"":""Y2VydA"",""key_pkcs8_b64"":""a2V5"",""domain"":""v.example""}" = Some ("own", "new", "new")
  /\ f "{""cert_der_b64"":""Y2VydA=="",""key_pkcs8_b64"":""a2V5"",""domain"":""w.example""}" = Some ("own", "new", "new").
Proof. exact c101_reads_ex. Qed.

(** C101: The file of a domain has its labels, joined by underscores, as its name, and the ending ".json". *)
Theorem c101_name : forall d f, cache_file d = f <-> named d f.
Proof. exact c101_name_pf. Qed.
Print Assumptions c101_name.

Example c101_name_witness : named "a.v_x.example" "a_v_x_example.json" /\ ~ named "v.example" "v.example.json".
Proof. exact c101_name_ex. Qed.

(** C101: Domains without an underscore never share a file. *)
Theorem c101_separate : forall d d', has_char "_" d = false -> has_char "_" d' = false -> cache_file d = cache_file d' -> d = d'.
Proof. exact c101_separate_pf. Qed.
Print Assumptions c101_separate.

Example c101_separate_witness : has_char "_" "v.example" = false /\ cache_file "v.example" = "v_example.json" /\ cache_file "v-example" <> cache_file "v.example".
Proof. exact c101_separate_ex. Qed.

(** C101: What a verifier leaves in its file is JSON text that says the domain, the certificate and the key. *)
Theorem c101_file : forall (Cert Key : Type) (from_der : string -> option Cert) to_der (from_pkcs8 : string -> option Key) d der0 p x k der,
  utf8_valid d = true -> from_der der0 = Some x -> from_pkcs8 p = Some k -> to_der x = Some der ->
  exists text, json_text 127 text (JObj [("cert_der_b64", JStr (b64std_encode der)); ("domain", JStr d); ("key_pkcs8_b64", JStr (b64std_encode p))]) /\
    forall n, String.length text <= n ->
    file_get (cache_file d) (cs_files (history from_der to_der from_pkcs8 [EStart d true (Some (der0, p)); ECreate 0; EWrite 0 n])) = Some text.
Proof. exact c101_file_pf. Qed.
Print Assumptions c101_file.

Example c101_file_witness : file_get "v_example.json" (cs_files (toy_history [toy_start "v.example" "cert" "key"; ECreate 0; EWrite 0 200])) =
  Some (join newline ["{"; "  ""domain"": ""v.example"","; "  ""cert_der_b64"": ""Y2VydA=="","; "  ""key_pkcs8_b64"": ""a2V5"""; "}"]).
Proof. exact c101_file_ex. Qed.

(** C101: Indented JSON text denotes the value it was written from. *)
Theorem c101_text : forall j, jwf j = true -> jdepth j <= 127 -> json_text 127 (jpretty "" j) j.
Proof. exact c101_text_pf. Qed.
Print Assumptions c101_text.

Example c101_text_witness : jwf (JObj [("a", JArr [JInt 1; JObj []]); ("b", JArr [])]) = true
  /\ jpretty "" (JObj [("a", JArr [JInt 1; JObj []]); ("b", JArr [])]) = join newline ["{"; "  ""a"": ["; "    1,"; "    {}"; "  ],"; "  ""b"": []"; "}"].
Proof. exact c101_text_ex. Qed.

Example c101_pair_race_witness : whole_writes Some Some Some toy_race /\ domains_ok toy_race /\
  outcomes toy_race = [Some ("a longer key", "cert1", "cert1"); Some ("key2", "cert2", "cert2"); Some ("key3", "cert3", "cert3")].
Proof. exact c101_pair_race_ex. Qed.

(** C101: Two domains that differ in a dot and an underscore take each other's place: with one verifier at a time, none stopped and every file readable,
    the same domain gets two different certificates. *)
Theorem c101_evict_refuted :
  exists es, one_at_a_time Some Some Some es /\ domains_ok es /\ (forall i, ~ In (EStop i) es) /\ (forall d, readable_for d es) /\
    map (@v_domain string string) (cs_verifiers (history Some Some Some es)) = ["a.b"; "a_b"; "a.b"] /\
    map v_outcome (cs_verifiers (history Some Some Some es)) = [Some ("key1", "cert1", "cert1"); Some ("key2", "cert2", "cert2"); Some ("key3", "cert3", "cert3")].
Proof. exact c101_evict_refuted_pf. Qed.
Print Assumptions c101_evict_refuted.

(** C101: Two verifiers started together for one domain, one of them stopped in the middle of its write, can leave a file from which a third one takes the
    certificate of one and the key of the other. *)
Theorem c101_mixed_refuted :
  exists es, domains_ok es /\ map (@v_domain string string) (cs_verifiers (history Some Some Some es)) = ["v.example"; "v.example"; "v.example"] /\
    map v_outcome (cs_verifiers (history Some Some Some es)) = [Some ("key1", "cert1", "cert1"); Some ("key2", "cert2", "cert2"); Some ("key1", "cert2", "cert2")].
Proof. exact c101_mixed_refuted_pf. Qed.
Print Assumptions c101_mixed_refuted.
