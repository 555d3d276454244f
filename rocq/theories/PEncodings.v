(** Forms and base64 (C96, C97) *)
From Coq Require Import Lia ZifyBool ZifyN ZifyNat.
From Verif Require Import Base BaseFacts Utf8 Utf8Facts Base64 Base64Facts UrlEncoded UrlEncodedFacts SpecJsonText SpecEncodings GrammarFacts PfX509.
From Verif Require Import PfEncodings.

(** C97: The base64url reader accepts exactly the canonical texts of RFC 4648 without padding, and returns the bytes they stand for; the writer writes that text. *)
Theorem c97_base64url : forall s t, (b64url_decode t = Some s <-> b64_text url_alphabet s t) /\ (b64url_encode s = t <-> b64_text url_alphabet s t).
Proof. exact c97_base64url_pf. Qed.
Print Assumptions c97_base64url.

Example c97_base64url_witness : b64url_decode "_-8" = Some (s1 (chr 255) +:+ s1 (chr 239)) /\ b64_text url_alphabet (s1 (chr 255) +:+ s1 (chr 239)) "_-8"
  /\ b64url_decode "_-9" = None /\ b64url_decode "_-8=" = None /\ b64url_decode "A" = None.
Proof. exact c97_base64url_ex. Qed.

(** C97: Certificates are written as standard base64 with padding to a multiple of four symbols, and read from the same symbols with any number of equals signs behind them. *)
Theorem c97_certificates : forall s x,
  (b64std_encode s = x <-> exists t p, x = t +:+ p /\ b64_text std_alphabet s t /\ padding p /\ String.length p < 4 /\ String.length x mod 4 = 0)
  /\ (b64std_nopad_decode (trim_end "=" x) = Some s <-> exists t p, x = t +:+ p /\ b64_text std_alphabet s t /\ padding p).
Proof. exact c97_certificates_pf. Qed.
Print Assumptions c97_certificates.

Example c97_certificates_witness : b64std_encode "ab" = "YWI=" /\ b64std_nopad_decode (trim_end "=" "YWI==") = Some "ab".
Proof. exact c97_certificates_ex. Qed.

(** C96: Text decoded from a form is valid UTF-8: characters stay, and each maximal piece of a broken character becomes U+FFFD. *)
Theorem c96_repair : forall s t, utf8_lossy s = t <-> repairs s t.
Proof. exact c96_repair_pf. Qed.
Print Assumptions c96_repair.

(** A broken character in the middle: the lead byte of a three-byte character and one continuation byte become one U+FFFD. *)
Example c96_repair_witness : repairs ("a" +:+ s1 (chr 226) +:+ s1 (chr 130) +:+ "b" +:+ s1 (chr 192) +:+ s1 (chr 128)) ("a" +:+ replacement +:+ "b" +:+ replacement +:+ replacement).
Proof. exact c96_repair_ex. Qed.

(** C96: The form writer writes exactly what the URL standard says for the fields: spaces as plus signs, all but letters, digits and four other
    characters as upper-case escapes. *)
Theorem c96_written : forall l t, form_serialize l = t <-> form_written l t.
Proof. exact c96_written_pf. Qed.
Print Assumptions c96_written.

Example c96_written_witness : form_written [("a b", "c=d/"); ("_*", "")] "a+b=c%3Dd%2F&_*=".
Proof. exact c96_written_ex. Qed.

(** C96: The form reader finds in a query string or request body exactly the fields it has by the URL standard. *)
Theorem c96_form : forall s l, form_parse s = l <-> form_text s l.
Proof. exact c96_form_pf. Qed.
Print Assumptions c96_form.

Example c96_form_witness : form_text "a=1+2&&b=%C3%A9%zz&c&=x%" [("a", "1 2"); ("b", utf8_encode 233 +:+ "%zz"); ("c", ""); ("", "x%")].
Proof. exact c96_form_ex. Qed.
