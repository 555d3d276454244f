(** Proofs about sequences of calls on a JWE builder. *)
From Verif Require Import Base BaseFacts Json JsonText Jwe SpecRequest SpecJwe SpecJweCalls PfJwe.

Definition pick {A} (f : jwe_call -> option A) (calls : list jwe_call) (d : option A) : option A :=
  fold_left (fun a c => match f c with Some x => Some x | None => a end) calls d.
Definition f_payload c := match c with PayloadIs j => Some j | _ => None end.
Definition f_key c := match c with KeyIs k => Some k | KeyJsonIs j => match json_of_text (jprint j) with Some (JObj k) => Some k | _ => None end | _ => None end.
Definition f_alg c := match c with AlgIs j => Some j | _ => None end.
Definition f_enc c := match c with EncIs j => Some j | _ => None end.
Definition f_kid c := match c with KidIs j => Some j | _ => None end.

Lemma run_iff jwk_ok cs : forall b b', fold_left (jwe_do jwk_ok) cs (Ok b) = Ok b' <->
  keys_accepted jwk_ok cs /\ b' = mk_jb (pick f_payload cs (jb_payload b)) (pick f_key cs (jb_key b)) (pick f_alg cs (jb_alg b)) (pick f_enc cs (jb_enc b)) (pick f_kid cs (jb_kid b)).
Proof.
  assert (Bad : forall cs e b', fold_left (jwe_do jwk_ok) cs (Err e) <> Ok b') by (clear; induction cs; cbn [fold_left]; [discriminate|exact IHcs]).
  induction cs as [|c cs IH]; intros b b'; cbn [fold_left].
  - unfold pick. cbn [fold_left]. destruct b; cbn. split; [intros H; injection H as <-; split; [intros j []|reflexivity]|intros [_ ->]; reflexivity].
  - assert (T : forall c', (forall j, c' <> KeyJsonIs j) -> (keys_accepted jwk_ok (c' :: cs) <-> keys_accepted jwk_ok cs)).
    { intros c' N. split; intros K j I; [apply K; now right|]. destruct I as [E|I]; [now destruct (N j)|auto]. }
    destruct c as [j|k|j|a|e|k]; cbn [jwe_do rbind]; try (rewrite IH, T by discriminate; reflexivity).
    unfold jb_set_key_json, jwk_of_text. unfold pick at 2. cbn [fold_left f_key]. fold (pick f_key). destruct (json_of_text (jprint j)) as [[| | | | | |m]|] eqn:E; cbn [rbind].
    7: { destruct (jwk_ok m) eqn:J; cbn [rbind].
         - rewrite IH. split; intros [K ->]; (split; [|reflexivity]); intros j' I; [|apply K; now right]. destruct I as [I|I]; [injection I as <-; eauto|auto].
         - split; [intros H; now destruct (Bad _ _ _ H)|]. intros [K _]. destruct (K j (or_introl eq_refl)) as (k & E' & J'). rewrite E in E'. injection E' as <-. congruence. }
    all: split; [intros H; now destruct (Bad _ _ _ H)|]; intros [K _]; destruct (K j (or_introl eq_refl)) as (k & E' & J'); rewrite E in E'; discriminate E'.
Qed.
Lemma pick_iff {A} (f : jwe_call -> option A) (sets : jwe_call -> A -> Prop) : (forall c x, f c = Some x <-> sets c x) ->
  forall cs d x, pick f cs d = Some x <-> latest sets cs x \/ (never sets cs /\ d = Some x).
Proof.
  intros S cs. induction cs as [|c cs IH] using rev_ind; intros d x.
  - unfold pick. cbn [fold_left]. split; [intros ->; right; split; [intros ? ? []|reflexivity]|]. intros [(l & c & r & E & _)|[_ ->]]; [destruct l; discriminate E|reflexivity].
  - unfold pick. rewrite fold_left_app. cbn [fold_left]. fold (pick f cs d). destruct (f c) as [y|] eqn:E.
    + apply S in E. split.
      * intros H. injection H as ->. left. exists cs, c, []. split; [reflexivity|]. split; [exact E|intros ? ? []].
      * intros [(l & c' & r & Eq & Sx & N)|[N _]]; [|destruct (N c y); [apply in_or_app; right; now left|exact E]].
        destruct r as [|z r] using rev_ind; [apply app_inj_tail in Eq as [-> ->]; apply S in Sx, E; congruence|]. clear IHr.
        rewrite app_comm_cons, app_assoc in Eq. apply app_inj_tail in Eq as [_ ->]. destruct (N z y); [apply in_or_app; right; now left|exact E].
    + rewrite IH. assert (Nc : forall y, ~ sets c y) by (intros y Y; apply S in Y; congruence). split.
      * intros [(l & c' & r & -> & Sx & N)|[N D]].
        -- left. exists l, c', (r ++ [c])%list. rewrite <- app_assoc. split; [reflexivity|]. split; [exact Sx|]. intros c2 y I. apply in_app_or in I as [I|[<-|[]]]; [eauto|apply Nc].
        -- right. split; [|exact D]. intros c2 y I. apply in_app_or in I as [I|[<-|[]]]; [eauto|apply Nc].
      * intros [(l & c' & r & Eq & Sx & N)|[N D]].
        -- left. destruct r as [|z r] using rev_ind; [apply app_inj_tail in Eq as [-> ->]; now destruct (Nc x)|]. clear IHr. rewrite app_comm_cons, app_assoc in Eq. apply app_inj_tail in Eq as [-> ->].
           exists l, c', r. split; [reflexivity|]. split; [exact Sx|]. intros c2 y I. apply N, in_or_app. now left.
        -- right. split; [|exact D]. intros c2 y I. apply N, in_or_app. now left.
Qed.
Lemma pick_none {A} (f : jwe_call -> option A) (sets : jwe_call -> A -> Prop) : (forall c x, f c = Some x <-> sets c x) ->
  forall cs, pick f cs None = None <-> never sets cs.
Proof.
  intros S cs. split.
  - intros E. assert (G : forall c y, In c cs -> sets c y -> pick f cs None <> None).
    { clear E. unfold pick. intros c y I Y. apply in_split in I as (l & r & ->). rewrite fold_left_app. cbn [fold_left]. apply S in Y. rewrite Y.
      assert (K : forall z, fold_left (fun a c => match f c with Some x => Some x | None => a end) r (Some z) <> None); [|apply K].
      induction r as [|c' r IH]; intros z; cbn [fold_left]; [discriminate|]. destruct (f c'); apply IH. }
    intros c y I Y. exact (G c y I Y E).
  - intros N. destruct (pick f cs None) as [x|] eqn:E; [|reflexivity]. apply (pick_iff f sets S) in E as [(l & c & r & -> & Sx & _)|[_ D]]; [|discriminate]. destruct (N c x); [apply in_or_app; right; now left|exact Sx].
Qed.
Lemma s_payload c x : f_payload c = Some x <-> as_payload c x.
Proof. unfold as_payload. destruct c; cbn; split; congruence || discriminate. Qed.
Lemma s_key c x : f_key c = Some x <-> as_key c x.
Proof.
  unfold as_key. destruct c; cbn; split; try discriminate; try (intros [E|(j' & E & _)]; discriminate).
  - intros E. left. congruence.
  - intros [E|(j' & E & _)]; congruence.
  - destruct (json_of_text (jprint j)) as [[| | | | | |m]|] eqn:E; try discriminate. intros H. injection H as ->. right. eauto.
  - intros [E|(j' & E & H)]; [discriminate|]. injection E as <-. now rewrite H.
Qed.
Lemma s_alg c x : f_alg c = Some x <-> as_alg c x.
Proof. unfold as_alg. destruct c; cbn; split; congruence || discriminate. Qed.
Lemma s_enc c x : f_enc c = Some x <-> as_enc c x.
Proof. unfold as_enc. destruct c; cbn; split; congruence || discriminate. Qed.
Lemma s_kid c x : f_kid c = Some x <-> as_kid c x.
Proof. unfold as_kid. destruct c; cbn; split; congruence || discriminate. Qed.
Lemma pick_latest {A} (f : jwe_call -> option A) (sets : jwe_call -> A -> Prop) : (forall c x, f c = Some x <-> sets c x) -> forall cs x, pick f cs None = Some x <-> latest sets cs x.
Proof. intros S cs x. rewrite (pick_iff f sets S). split; [intros [H|[_ H]]; [exact H|discriminate]|tauto]. Qed.

(** C48: whatever calls are made on a new builder and in whatever order, [build] gives a JWE exactly when every key given as JSON was
    acceptable and the latest payload, key and algorithm set are an object with typed registered claims, any key, and ECDH-ES; the
    header then carries the latest enc set (A128GCM if none was) and the latest key id set (the key's own if none was). *)
Lemma c48_calls_pf : forall jwk_ok encrypt calls jwe,
  jwe_session jwk_ok encrypt calls = Ok jwe <->
  keys_accepted jwk_ok calls
  /\ exists claims key header enc kid,
       latest as_payload calls (JObj claims) /\ registered_types claims
       /\ latest as_key calls key /\ latest as_alg calls "ECDH-ES"
       /\ (latest as_enc calls enc \/ (never as_enc calls /\ enc = "A128GCM"))
       /\ ((exists k, latest as_kid calls k /\ kid = Some k) \/ (never as_kid calls /\ maybe_text "kid" key kid))
       /\ object_is header (jwe_members enc kid)
       /\ encrypt header claims key = Ok jwe.
Proof.
  intros jok encrypt calls jwe. unfold jwe_session. split.
  - intros H. apply rbind_ok in H as (b & Hb & H). apply run_iff in Hb as [K ->]. split; [exact K|]. apply c48_build_pf in H as (claims & key & header & kid & P & R & Kk & A & Kd & Hh & E).
    cbn [jb_payload jb_key jb_alg jb_enc jb_kid jb_new] in *. exists claims, key, header, (match pick f_enc calls None with Some e => e | None => "A128GCM" end), kid.
    apply (pick_latest _ _ s_payload) in P. apply (pick_latest _ _ s_key) in Kk. apply (pick_latest _ _ s_alg) in A. do 4 (split; [assumption|]). split; [|split; [|split; assumption]].
    + destruct (pick f_enc calls None) as [e|] eqn:Ee; [left; now apply (pick_latest _ _ s_enc)|right]. split; [now apply (pick_none _ _ s_enc)|reflexivity].
    + destruct (pick f_kid calls None) as [e|] eqn:Ee; [left; exists e; split; [now apply (pick_latest _ _ s_kid)|exact Kd]|right]. split; [now apply (pick_none _ _ s_kid)|exact Kd].
  - intros (K & claims & key & header & enc & kid & P & R & Kk & A & En & Kd & Hh & E).
    rewrite (proj2 (run_iff jok calls jb_new _) (conj K eq_refl)). cbn [rbind]. apply c48_build_pf. exists claims, key, header, kid. cbn [jb_payload jb_key jb_alg jb_enc jb_kid jb_new].
    split; [now apply (pick_latest _ _ s_payload)|]. split; [exact R|]. split; [now apply (pick_latest _ _ s_key)|]. split; [now apply (pick_latest _ _ s_alg)|]. split; [|split; [|exact E]].
    + destruct Kd as [(k & L & ->)|[N M]]; [apply (pick_latest _ _ s_kid) in L; now rewrite L|]. apply (pick_none _ _ s_kid) in N. now rewrite N.
    + destruct En as [L|[N ->]]; [apply (pick_latest _ _ s_enc) in L; now rewrite L|]. apply (pick_none _ _ s_enc) in N. now rewrite N.
Qed.

Example c48_calls_ex :
  jwe_session (fun _ => true) (fun h c k => Ok (jprint (JArr [JObj h; JObj c])))
    [KidIs "old"; PayloadIs (JObj [("a", JNull)]); AlgIs "dir"; KeyJsonIs (JObj [("kid", JStr "k")]); AlgIs "ECDH-ES"; EncIs "A256GCM"; PayloadIs (JObj [("b", JNull)]); KidIs "new"]
  = Ok "[{""alg"":""ECDH-ES"",""enc"":""A256GCM"",""kid"":""new"",""typ"":""JWT""},{""b"":null}]"
  /\ is_ok (jwe_session (fun _ => true) (fun h c k => Ok "") [PayloadIs (JObj []); KeyIs []; KeyJsonIs (JArr []); AlgIs "ECDH-ES"]) = false.
Proof. split; vm_compute; reflexivity. Qed.
