From Verif Require Import Base BaseFacts Url Session Builder ExVerifier SpecVerifierEx PfExInitiate WebUrl SpecWebUrl PfWebUrl PfWebReads PfWebFlow WebJoin PfWebJoin PfInterop.

(* ------------------------------------------------------------ C114: the addresses of the example verifier *)
Lemma dir_split x : exists dir last, has_char "/" last = false /\ "/" +:+ x = dir +:+ "/" +:+ last
  /\ forall seg, "/" +:+ join "/" (rev (tl (rev (split_all "/" x))) ++ [seg]) = dir +:+ "/" +:+ seg.
Proof.
  destruct (rev (split_all "/" x)) as [|z l] eqn:E.
  - apply (f_equal (@rev string)) in E. rewrite rev_involutive in E. now apply split_all_nonempty in E.
  - apply (f_equal (@rev string)) in E. rewrite rev_involutive in E. cbn [rev] in E. cbn [tl].
    assert (X : x = join "/" (rev l ++ [z])) by (rewrite <- E; symmetry; apply (join_split "/")).
    assert (N : has_char "/" z = false) by (apply (split_all_no "/" x); rewrite E; apply in_app_iff; right; now left).
    destruct (rev l) as [|h t] eqn:R.
    + exists "", z. split; [exact N|]. split; [now rewrite X|reflexivity].
    + exists ("/" +:+ join "/" (h :: t)), z. split; [exact N|]. rewrite X, join_snoc by discriminate. split; [now rewrite !sapp_assoc|].
      intros seg. rewrite join_snoc by discriminate. now rewrite !sapp_assoc.
Qed.
(** C114: the addresses of the example verifier's endpoints are what the URL standard says "response" and "request" mean at its public
    URL: that URL with the last segment of the path replaced, without query and fragment. *)
Lemma c114_sibling_pf :
  forall (domain ipv6 : string -> option string) (base : url) (segment : string) (r : url),
    special (u_scheme base) -> (exists x, u_path base = "/" +:+ x) -> u_opaque base = false -> segment = "response" \/ segment = "request" ->
    web_join domain ipv6 base segment = Some r <-> sibling base segment r.
Proof.
  intros domain ipv6 base segment r Sp [x Hp] O Seg.
  assert (J : web_join domain ipv6 base segment = Some (mk_url (u_scheme base) (u_auth base) ("/" +:+ join "/" (rev (tl (rev (split_all "/" x))) ++ [segment])) false None None)).
  { unfold web_join. rewrite (proj2 (special_iff _) Sp). destruct Seg as [-> | ->].
    - change (relative domain ipv6 base "response" = Some (mk_url (u_scheme base) (u_auth base) ("/" +:+ join "/" (rev (tl (rev (split_all "/" x))) ++ ["response"])) false None None)).
      unfold relative. rewrite Hp. reflexivity.
    - change (relative domain ipv6 base "request" = Some (mk_url (u_scheme base) (u_auth base) ("/" +:+ join "/" (rev (tl (rev (split_all "/" x))) ++ ["request"])) false None None)).
      unfold relative. rewrite Hp. reflexivity. }
  rewrite J. destruct (dir_split x) as (dir & last & N & P & Q). rewrite Q.
  assert (S : sibling base segment (mk_url (u_scheme base) (u_auth base) (dir +:+ "/" +:+ segment) false None None)).
  { repeat (split; [assumption || reflexivity|]). exists dir. split; [reflexivity|]. left. exists last. split; [now rewrite Hp|exact N]. }
  split; [intros [= <-]; exact S|]. intros S'. apply sibling_join in S, S'. congruence.
Qed.
Example c114_sibling_ex : exists base, web_parse toy_domain toy_ipv6 "https://v.example:8443/a/b?q#f" = Some base /\ special (u_scheme base) /\ u_opaque base = false
  /\ u_path base = "/a/b" /\ option_map url_str (web_join toy_domain toy_ipv6 base "response") = Some "https://v.example:8443/a/response".
Proof.
  exists (mk_url "https" (Some "v.example:8443") "/a/b" false (Some "q") (Some "f")). split; [vm_compute; reflexivity|]. split; [right; now left|]. repeat (split; [reflexivity|]). vm_compute. reflexivity.
Qed.
