(** Specification vocabulary: wallets that say they support more. *)
From Verif Require Import Base Json Url Metadata Spec SpecObject.

(** Whatever [w] lists under [k], [w'] lists too. *)
Definition lists_more (k : string) (w w' : wallet_metadata) : Prop :=
  forall l, obj_get k (wm_obj w) = Some (JArr (map JStr l)) -> exists l', obj_get k (wm_obj w') = Some (JArr (map JStr l')) /\ incl l l'.
(** A list that is a restriction when it is there: [w'] has none, or [w] has one and [w'] a longer one. *)
Definition restricts_less (k : string) (w w' : wallet_metadata) : Prop :=
  obj_get k (wm_obj w') = None \/ obj_get k (wm_obj w) <> None /\ lists_more k w w'.
(** The same endpoint, and nothing less: client identifier prefixes (pre-registered alone when there is no list), signing
    algorithms, and encryption (anything when there is no list). *)
Record declares_more (w w' : wallet_metadata) : Prop := mk_declares {
  dm_endpoint : wm_endpoint w' = wm_endpoint w /\ obj_get "authorization_endpoint" (wm_obj w') = obj_get "authorization_endpoint" (wm_obj w);
  dm_prefixes : forall l, supported "client_id_prefixes_supported" ["pre-registered"] w = Ok l ->
    exists l', supported "client_id_prefixes_supported" ["pre-registered"] w' = Ok l' /\ incl l l';
  dm_signing : lists_more "request_object_signing_alg_values_supported" w w';
  dm_algs : restricts_less "authorization_encryption_alg_values_supported" w w';
  dm_encs : restricts_less "authorization_encryption_enc_values_supported" w w'
}.
(** Trusting everyone, or more. *)
Definition trusts_more (t t' : option (list string)) : Prop :=
  t' = None \/ exists l l', t = Some l /\ t' = Some l' /\ incl l l'.
