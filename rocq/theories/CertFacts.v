(** The names that the model finds in a certificate are those of the specification. *)
From Verif Require Import Base X509 SpecCert.

Lemma dns_of_fun l r : dns_of l r <-> r = flat_map (fun g => match g with DnsName d => [d] | OtherName _ _ => [] end) l.
Proof.
  split.
  - induction 1 as [|d l r _ ->|k v l r _ ->]; reflexivity.
  - intros ->. induction l as [|[d|k v] l IH]; cbn; constructor; exact IH.
Qed.
Lemma dns_names_iff c l : dns_names c l <-> l = c_dns c.
Proof.
  unfold dns_names, c_dns, san_extensions. generalize (c_extensions c) as es. intros es. split.
  - induction 1 as [|e g n es r I N D _ ->|e es r [I|I] _ ->]; cbn [filter map flat_map].
    + reflexivity.
    + rewrite (proj2 (String.eqb_eq _ _) I). cbn [map flat_map]. rewrite N. apply dns_of_fun in D as ->. reflexivity.
    + rewrite (proj2 (String.eqb_neq _ _) I). reflexivity.
    + destruct (String.eqb _ _); [|reflexivity]. cbn [map flat_map]. rewrite I. reflexivity.
  - intros ->. induction es as [|e es IH]; cbn [filter map flat_map]; [constructor|].
    destruct (String.eqb_spec (x_id e) "2.5.29.17") as [I|I]; [|now apply in_skip; [left|]].
    cbn [map flat_map]. destruct (x_names e) as [g|] eqn:N; [|now apply in_skip; [right|]].
    eapply in_san; [exact I|exact N|now apply dns_of_fun|exact IH].
Qed.
Lemma certified_iff c d : certified c d <-> In d (c_dns c).
Proof.
  unfold certified, c_dns, san_extensions. rewrite in_flat_map. split.
  - intros (e & l & He & I & N & Hd). exists (Some (x_critical e, l)). split.
    + apply in_map_iff. exists e. rewrite N. split; [reflexivity|]. apply filter_In. split; [exact He|]. now apply String.eqb_eq.
    + apply in_flat_map. exists (DnsName d). split; [exact Hd|now left].
  - intros ([[b l]|] & Hr & Hd); [|destruct Hd]. apply in_map_iff in Hr as (e & He & Hf). apply filter_In in Hf as [Hf I].
    apply String.eqb_eq in I. destruct (x_names e) as [l'|] eqn:N; [|discriminate]. injection He as _ ->.
    apply in_flat_map in Hd as ([d'|k v] & Hg & Hd); [|destruct Hd]. destruct Hd as [<-|[]]. exists e, l. auto.
Qed.
Lemma dns_cons c d r : dns_names c (d :: r) <-> c_dns c = d :: r.
Proof. rewrite dns_names_iff. split; congruence. Qed.
