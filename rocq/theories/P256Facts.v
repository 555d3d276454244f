(** Checking a multiple of the base point of P-256, given the slopes of the lines. *)
From Coq Require Import Lia.
From Verif Require Import Base P256 SpecP256.

(** Arithmetic modulo p, which is 2^256 - 2^224 + 2^192 + 2^96 - 1: what exceeds 256 bits is folded back. *)
Definition fold_high (h : N) : N := (N.shiftl h 224 + h - (N.shiftl h 192 + N.shiftl h 96))%N.
Fixpoint reduce (fuel : nat) (x : N) : N :=
  match fuel with
  | O => (x mod p256_p)%N
  | S f => let h := N.shiftr x 256 in
           if (h =? 0)%N then (if (x <? p256_p)%N then x else x - p256_p)%N
           else reduce f (N.land x (N.ones 256) + fold_high h)
  end.
Definition fmul (a b : N) : N := reduce 16 (a * b).
Definition fadd (a b : N) : N := reduce 16 (a + b).
Definition fsub (a b : N) : N :=
  let b := (if (b <? p256_p)%N then b else b mod p256_p)%N in (if (b <=? a)%N then a - b else a + p256_p - b)%N.
Definition num_den (a b : N * N) : N * N :=
  if ((fst a =? fst b) && (snd a =? snd b))%N
  then (fsub (fmul 3 (fmul (fst a) (fst a))) 3, fadd (snd a) (snd a))
  else (fsub (snd b) (snd a), fsub (fst b) (fst a)).
Definition add_by (l : N) (a b : N * N) : option (N * N) :=
  let nd := num_den a b in
  if (fmul l (snd nd) =? fst nd)%N && (0 <? snd nd)%N && (snd nd <? p256_p)%N then
    let x := fsub (fsub (fmul l l) (fst a)) (fst b) in
    let y := fsub (fmul l (fsub (fst a) x)) (snd a) in
    if (x <? p256_p)%N && (y <? p256_p)%N then Some (x, y) else None
  else None.
Fixpoint climb (k : positive) (hints : list N) : option (N * N * list N) :=
  match k with
  | xH => Some (p256_g, hints)
  | xO k => match climb k hints with
            | Some (b, l :: hints) => match add_by l b b with Some c => Some (c, hints) | None => None end
            | _ => None
            end
  | xI k => match climb k hints with
            | Some (b, l :: l' :: hints) =>
                match add_by l b b with
                | Some c => match add_by l' c p256_g with Some e => Some (e, hints) | None => None end
                | None => None
                end
            | _ => None
            end
  end.

Definition to_point (a : N * N) : point := (Z.of_N (fst a), Z.of_N (snd a)).

Open Scope Z_scope.
Lemma eqm_refl a : eqm a a.
Proof. exists 0. lia. Qed.
Lemma eqm_sym a b : eqm a b -> eqm b a.
Proof. intros [k E]. exists (- k). lia. Qed.
Lemma eqm_trans a b c : eqm a b -> eqm b c -> eqm a c.
Proof. intros [k E] [j F]. exists (k + j). lia. Qed.
Lemma eqm_mul a b c d : eqm a b -> eqm c d -> eqm (a * c) (b * d).
Proof. intros [k E] [j F]. exists (k * c + b * j). replace a with (b + k * modulus) by lia. replace c with (d + j * modulus) by lia. ring. Qed.
Lemma eqm_add a b c d : eqm a b -> eqm c d -> eqm (a + c) (b + d).
Proof. intros [k E] [j F]. exists (k + j). lia. Qed.
Lemma eqm_sub a b c d : eqm a b -> eqm c d -> eqm (a - c) (b - d).
Proof. intros [k E] [j F]. exists (k - j). lia. Qed.
Lemma eqm_small a b : 0 <= a < modulus -> 0 <= b < modulus -> eqm a b -> a = b.
Proof. intros A B [k E]. assert (k = 0) by nia. nia. Qed.

Lemma modulus_pos : 0 < modulus.
Proof. reflexivity. Qed.
Lemma fold_exact h : Z.of_N (fold_high h) + Z.of_N h * modulus = Z.of_N h * 2 ^ 256.
Proof.
  unfold fold_high. rewrite !N.shiftl_mul_pow2.
  assert (L : (h * 2 ^ 192 + h * 2 ^ 96 <= h * 2 ^ 224 + h)%N).
  { replace (h * 2 ^ 192 + h * 2 ^ 96)%N with (h * (2 ^ 192 + 2 ^ 96))%N by ring. replace (h * 2 ^ 224 + h)%N with (h * (2 ^ 224 + 1))%N by ring.
    apply N.mul_le_mono_l. vm_compute. discriminate. }
  rewrite N2Z.inj_sub by exact L. rewrite !N2Z.inj_add, !N2Z.inj_mul.
  change (Z.of_N (2 ^ 224)%N) with (2 ^ 224). change (Z.of_N (2 ^ 192)%N) with (2 ^ 192). change (Z.of_N (2 ^ 96)%N) with (2 ^ 96).
  change modulus with (2 ^ 256 - 2 ^ 224 + 2 ^ 192 + 2 ^ 96 - 1). ring.
Qed.
Lemma reduce_ok f : forall x, eqm (Z.of_N (reduce f x)) (Z.of_N x).
Proof.
  induction f as [|f IH]; intros x; cbn [reduce].
  - rewrite N2Z.inj_mod. exists (- (Z.of_N x / modulus)). fold modulus. pose proof (Z.div_mod (Z.of_N x) modulus). pose proof modulus_pos. lia.
  - destruct (N.shiftr x 256 =? 0)%N.
    + destruct (N.ltb_spec x p256_p); [apply eqm_refl|]. rewrite N2Z.inj_sub by assumption. exists (-1). fold modulus. lia.
    + eapply eqm_trans; [apply IH|]. exists (- Z.of_N (N.shiftr x 256)).
      rewrite N2Z.inj_add, N.land_ones, N.shiftr_div_pow2. pose proof (fold_exact (x / 2 ^ 256)).
      pose proof (N.div_mod x (2 ^ 256) ltac:(discriminate)) as D. apply (f_equal Z.of_N) in D.
      rewrite N2Z.inj_add, N2Z.inj_mul in D. change (Z.of_N (2 ^ 256)%N) with (2 ^ 256) in D. lia.
Qed.
Lemma fmul_ok a b : eqm (Z.of_N (fmul a b)) (Z.of_N a * Z.of_N b).
Proof. unfold fmul. rewrite <- N2Z.inj_mul. apply reduce_ok. Qed.
Lemma fadd_ok a b : eqm (Z.of_N (fadd a b)) (Z.of_N a + Z.of_N b).
Proof. unfold fadd. rewrite <- N2Z.inj_add. apply reduce_ok. Qed.
Lemma fsub_ok a b : eqm (Z.of_N (fsub a b)) (Z.of_N a - Z.of_N b).
Proof.
  unfold fsub. set (b' := (if (b <? p256_p)%N then b else b mod p256_p)%N).
  assert (B : (b' < p256_p)%N /\ eqm (Z.of_N b') (Z.of_N b)).
  { unfold b'. destruct (N.ltb_spec b p256_p); [split; [assumption|apply eqm_refl]|].
    split; [apply N.mod_lt; discriminate|]. apply (reduce_ok 0). }
  destruct B as [L B]. cbv zeta.
  apply eqm_trans with (Z.of_N a - Z.of_N b'); [|apply eqm_sub; [apply eqm_refl|exact B]].
  destruct (N.leb_spec b' a).
  - rewrite N2Z.inj_sub by assumption. apply eqm_refl.
  - rewrite N2Z.inj_sub by lia. rewrite N2Z.inj_add. exists 1. fold modulus. lia.
Qed.

Strategy 1000 [fmul fadd fsub reduce num_den modulus p256_p].
Lemma add_by_ok l a b c : add_by l a b = Some c -> adds (to_point a) (to_point b) (to_point c).
Proof.
  unfold add_by. cbv zeta.
  destruct ((fmul l (snd (num_den a b)) =? fst (num_den a b))%N && (0 <? snd (num_den a b))%N && (snd (num_den a b) <? p256_p)%N)%bool eqn:E; [|discriminate].
  apply andb_true_iff in E as [E E3]. apply andb_true_iff in E as [E1 E2].
  apply N.eqb_eq in E1. apply N.ltb_lt in E2. apply N.ltb_lt in E3.
  set (x := fsub (fsub (fmul l l) (fst a)) (fst b)). set (y := fsub (fmul l (fsub (fst a) x)) (snd a)).
  destruct ((x <? p256_p)%N && (y <? p256_p)%N)%bool eqn:F; [|discriminate]. apply andb_true_iff in F as [F1 F2].
  apply N.ltb_lt in F1. apply N.ltb_lt in F2. intros [= <-]. exists (Z.of_N l). cbn [to_point fst snd].
  assert (D : 0 < Z.of_N (snd (num_den a b)) < modulus) by (unfold modulus; lia).
  assert (Nz : ~ eqm (Z.of_N (snd (num_den a b))) 0).
  { intros H. apply eqm_small in H; lia. }
  pose proof (fmul_ok l (snd (num_den a b))) as M. rewrite E1 in M.
  split.
  - unfold num_den in *. destruct ((fst a =? fst b) && (snd a =? snd b))%N%bool eqn:Q; cbn [fst snd] in *.
    + left. apply andb_true_iff in Q as [Q1 Q2]. apply N.eqb_eq in Q1, Q2. split; [unfold to_point; congruence|].
      pose proof (fadd_ok (snd a) (snd a)) as A. replace (Z.of_N (snd a) + Z.of_N (snd a)) with (2 * Z.of_N (snd a)) in A by ring.
      split. { intros H. apply Nz. eapply eqm_trans; [exact A|exact H]. }
      eapply eqm_trans; [apply eqm_mul; [apply eqm_refl|apply eqm_sym, A]|]. eapply eqm_trans; [apply eqm_sym, M|].
      eapply eqm_trans; [apply fsub_ok|]. apply eqm_sub; [|apply eqm_refl]. eapply eqm_trans; [apply fmul_ok|]. apply eqm_mul; [apply eqm_refl|apply fmul_ok].
    + right. pose proof (fsub_ok (fst b) (fst a)) as A. split.
      { intros H. apply Nz. eapply eqm_trans; [exact A|]. destruct H as [k H]. cbn [to_point fst snd] in H. exists (- k). lia. }
      eapply eqm_trans; [apply eqm_mul; [apply eqm_refl|apply eqm_sym, A]|]. eapply eqm_trans; [apply eqm_sym, M|]. apply fsub_ok.
  - split; [|split; [|unfold modulus; lia]].
    + unfold x. eapply eqm_trans; [apply fsub_ok|]. apply eqm_sub; [|apply eqm_refl]. eapply eqm_trans; [apply fsub_ok|].
      apply eqm_sub; [apply fmul_ok|apply eqm_refl].
    + unfold y. eapply eqm_trans; [apply fsub_ok|]. apply eqm_sub; [|apply eqm_refl]. eapply eqm_trans; [apply fmul_ok|].
      apply eqm_mul; [apply eqm_refl|apply fsub_ok].
Qed.

Lemma climb_ok k : forall hints a rest, climb k hints = Some (a, rest) -> multiple (Zpos k) (to_point a).
Proof.
  induction k as [k IH|k IH|]; intros hints a rest; cbn [climb].
  - destruct (climb k hints) as [[b [|l [|l' hs]]]|] eqn:C; try discriminate. destruct (add_by l b b) as [c|] eqn:A; [|discriminate].
    destruct (add_by l' c p256_g) as [e|] eqn:B; [|discriminate]. intros [= <- <-].
    replace (Zpos k~1) with ((Zpos k + Zpos k) + 1) by lia.
    eapply multiple_sum; [eapply multiple_sum; [eapply IH, C|eapply IH, C|eapply add_by_ok, A]|constructor|].
    exact (add_by_ok _ _ _ _ B).
  - destruct (climb k hints) as [[b [|l hs]]|] eqn:C; try discriminate. destruct (add_by l b b) as [c|] eqn:A; [|discriminate].
    intros [= <- <-]. replace (Zpos k~0) with (Zpos k + Zpos k) by lia.
    eapply multiple_sum; [eapply IH, C|eapply IH, C|eapply add_by_ok, A].
  - intros [= <- <-]. constructor.
Qed.

(** The slopes met on the way to the multiple by the secret of the example wallet. *)
Definition slopes : list N := [
  0xa249bcb3191802d3cb56fc75a8731f848e7b2caf080f3477a4e4d904a671af9d;
  0x28cdb0fe6681d140c59fb73f85f16459ca4cee083742bada762de4ca226a8086;
  0xcffdb37b9cade05fdb719f4ad73b00878ccbbf536584dc9d3ea8a8ba9b0101fa;
  0xab40f035841123b3c17483cd304400824d7bb41358162d7ebd135cc10cca8974;
  0xfe98b2659f4148b1e09df6bd9f4ef35b59b3eb4fe065bc23b5a8c2026488bb04;
  0xa7e809ca5ea4d500fda298b397d2b5d2c67f972a31bb3876ee7f13df43e507a0;
  0x7798eff661f1c6b577aa98c875f78e8a24b69c4108b633a114156f6d767e79bc;
  0x958e01684b6867df057b380c35356f2bbc8d02b168c4720062e35f51986bbc3a;
  0x2439ffe329f51f9cafc8440402877fd574c08b3757084e1ae0ec5a32bb398d3f;
  0x2914e64244765bcf9ef31f066bb041a547c2b8520e20251355fc9eb6b6197471;
  0x36fa2a4f9bcfd6472547b4dab08091ef03dd43b7cf02257c321779d486a272cf;
  0x9dbef8ef479e5127cc0c3f7daed9c7da61c8cb1ee1d0c7ae01f74c29f0606ca5;
  0x5711e7108119cf2f39e9d58f0944b76cf48bc7ae06aabe1a57bad0410212d33a;
  0xf295ad6e76110074e100f8060cb9e5ef6c1a453f48bea9d0f4335fbe17d1f149;
  0x185a2b4169c11a2c554b51302400d7eec3bae7b26360ab8705233099bcc40d82;
  0x521d80ab94d664190fe30e28aa8387cc687a8385128dc2ff8b7f5ca1b339895e;
  0xce7eb96ce7dbbceeeb3e0252e1be0ff49232c685abf749752841289f315d2980;
  0x9adfdc2f1d8cc8714d3b73a0c84cf1ae3a5b380e836ed1807b9c1e1dbd456d66;
  0x0db5df61c37f60acbaa5eb7de7aa70f2aaaf67b00cf5317cc882dcc8054ad7c7;
  0xb38cca4d6c883d2d855395009a1f51e9696475c9014d6ce6695cad69cbc00e1d;
  0xe6382dc71f7a30f47690ea785c0096b1b11cfd9da65f37b37846119356dcb57c;
  0xe435098a6c721cd0aaed6d156b5be3d94d7f62c720d1f9cd2cf1b62175540715;
  0xa8df5f65e9c88af6b52fe6a39f1629eadffe2ca3cb9cbb7bdb2ec2ab61351e75;
  0x13d9eef1d9ee5ae1919fab6afa3d1170715a21bdee94578fcb43934650a24966;
  0x8ac6dc6d8a192841de07d9a856f50c60c1a9620c4921b014dbfa047a340d999e;
  0xa26fbe0f05929b5db9d0141cd405fcf2250b3d62445e9d002ab7420b7a3398b6;
  0x6bc965d35f6702ac951acb4e7f9436bcc414fc4de32f8f90e04173ec8f6b8f27;
  0x3f559e0bdd77ace0cbf1c803fcda7880ee93dcd4431d65f2f5691cae75e512aa;
  0x4abbe1fbeae83264a9204f27889d9b3d0bcfed201057088b94c42f2ba25b05ca;
  0x55bf1d8f26e8f9ff5e2d24ecdc1c4d96f3b45cda69d3f1ea47558d1146f89935;
  0x7a1e87a954e25c760f965e7f3738113a34a232691d93f4e1a115b6f0b1f5db3b;
  0x65a7a402bcbab283deb3c7b91628d04ed15683290e25a474ef9aac8fcd1a38d8;
  0x6a57780c9ce1307446b600f4930ed8729ab08c6230c9373e4ea7cf6cc3ee730f;
  0xe83123a0262bac5b843880c503d75765ffa5a875d6001603dab57c88977074c1;
  0xdcb5be926c576130a05b63663c9c9b1420e9fa64afac2698e74a9834a0ef44e4;
  0x67eb52d57a5705e53f5adae3a196bc22b0c61d88cd476712868951d0fa460aa7;
  0x402fc9ac7b1d86b3db0b3f0e3e2b41e5ceef11551c94601d5dd71e3228e288fa;
  0xc5cf398896b5ff0f5b077f3e4c351ff23a0ffd2cf446b2a7414215aff60600da;
  0x8f9f9e9942db1d1b857bf71c98d063e495c51004eaa36de9c9f19ea786ac1cb9;
  0xd7ab444d163917ae57a123d020dcf1b1afd75e08b78e5770298ad975236990b3;
  0x5dc295519e73997246b379597886bd26b0205d79da3cccf3c85c3b8f054de171;
  0x340b4ba7af665a5bc36d0eb80bb91ade8b2c809f031ab601a0aa71728bc3d6a9;
  0x7f73bce42e865f6a7de620b930265fa8b05781de25f6a4c197294e23aad4d6ae;
  0x3aed7ee61879fd3cdc70347d16ec05cb03405330879ff2d963db60474b64e579;
  0x8fe61773e4819a182dcb4677f13f5e25e347d88e15e47a97cfb416fba1afd532;
  0xf1d5938eae60859892a61c4bbc424932b628aaa6b79c2e8417f5c0a7f0fd78e1;
  0x3cf9da5a5d4918d266c672e8cbd6991d0075933079b3d811cafaca47026ab2b2;
  0x751cc06fbeede717690c559c356802d6051e5dc1d5352b62fc730d61228a38bb;
  0x82e06edf2caecd45485414272846ee187f85ea0de5fc18edcdbffd749f8265d4;
  0x05da8384efad30e47121e8ea5bcf652cfedc6c784b2b7277193906b9a0e02e67;
  0x0dfc93bae198cc3fc549a4a661102f87ae34ed977342168e8a896a25cc223f0c;
  0xd4a99f7079d589c92586e3c0beb050e682c1dff8d06db1d73e53fd97fea96c49;
  0x16a4f9e2ef66ee61596319b53373899af618c9717941a620c153105777820109;
  0xafe29d73e921460176ac864140a9de40e71d1845d101afe394eae760bc22732e;
  0x030ce7a3b41a78d06ab7326c692f443d7654f2c6ab5ce91460c74ebad7c4911b;
  0x00b70766b3f1a4bf1e4b3e99a1f04c9fd35ad502993a604ccb6886447e31d97a;
  0xac1af76d25415ac3517a0bc14245c538cdc561b23936930e418fa21464c6f109;
  0x900f4888dfa89b2a64902c47e0217ec55b89d3fd6d0982114d5bfe2610b872d3;
  0x0f56613fabcc3f5ba4ca6102b46f80e05e1863c49ecb341e18a130d07029739f;
  0xfce54a79a9d1d951bf3428331627723e9b9eee64357d87710890c15c82df7bc5;
  0x979677159f6939e432c10295e4b93685345477e80422c5f4eaf42105d0e74c0c;
  0x4f613fb3f7323948d3a855af8bf8735f7febcea368146862d4976af14bf53147;
  0x487f0f7b1c5f2a3c370acfe46ac08da9b8843016838e6b0002568849b46ec6f6;
  0x376d72e35bf4c5c299d7df572356a17a4aadd164424696c321c93da145b6c9ac;
  0xcee77926935c2e6f18eef281a2e461b772e574bd120f2ab364cc0d92ac30eef8;
  0x830c9daf0a43b870a0ef98d0bb5afb72d461c4f6e4e334825dc9ac3faa393904;
  0xb61a522c04c026ea4672e6403618c7b4e3bb476de2fc23053c774f871bb38de3;
  0x9923b0cb3abb4541e0d7b201f15d61ae85d112ad1e54bac99611f7d818c68b61;
  0x02dd4d39fd044bdacd3d573974238e45a88c585211ff8765ce24320723ec8a6b;
  0xad153c319dd9ab962875685208fc4640963c4b753ba30330d35b0f88274cbeec;
  0xe29f539bcdab504318d3235ae034246461df56113a9c1cfee08af181c1f5dad9;
  0x8ec14f190088ed8a24b77aebb3dd685fcebc7fcf9834427c7562316d8d6f7cbe;
  0xa46c13bf141280e62f5728a55c885924610e417a1297e231fa85fc5ef54e3d16;
  0xe1ec19b7b4656f4311a902d4f88a01c6e8f00f859875e84d3847caf3b747b8f7;
  0xd032fac00c1e1b23d7b3b35abb40ea070971e91e15985c5b4a063cc3508f17e8;
  0xc7f994418c48fe8ae58e6266f694cb2e2d5b7810302fbb2bfc4127e24e3db852;
  0xc3efacbb145939958048c38d7253db6ed2d300cae821363a28bf553312642fcf;
  0x8c1181eb0d02405a99e9c4689c7b8e14e6eb2e7263b487e305f92e74747e6bb1;
  0xfd1a6b065f45e588d90207b9a8d9634fdcfc4bca16e85fb9088f6986b1476b9b;
  0x79aed2cc1a0cff62ae979d6c5c631b140a23479d70ea0243efab96c1e3f93a53;
  0x13892d7a5fb27bfdf197c98df52cdf8f56c7e38d0308e7890f3ab7853fbaf0a7;
  0xfc99229fe06cd053f5cf5a9084291f8723686886b81252423ffc7bd4377ea30f;
  0xea149c57c68ac218077c1b900145b3fecec77febdfc0433d71c8be9af162fd50;
  0x17c2a034954b0a88b372de15b581c4cc06c2c5f1d90c7fa3467f86d10b704ef9;
  0xd0010ff2d4a81543b8aa5fe25c72c12644bac9bd34bb1f8153354046522f2aa4;
  0xcf28021078396b931792243e7854dca5c9c3464f4d08ea40b6a6ec53a17e19e8;
  0x20170cb7af81d2286b8ab1d95efc0717da1df076612ad1833a3f1103371f0b49;
  0x6b2ecc08e3b09f812cde7302ca9506db6acb922e83547854cef1fd59abc151f2;
  0x8456765f26649bc2dea9dbe8a9f293229e29cd7b0e1b6bf8ab36243c393f48bc;
  0x2c79533d2677bff39f6e9d89411d90a73933e356cb2ae2ea90d7b2d4e8e75287;
  0x7f31a04ce066527e362af390389c463562a9bebf334c34995009481ba90a8600;
  0x07fea41f882c9ca80072d0ac7b7e12e9ff0ebcaea3d7aad8aac39f77848dbb59;
  0x25380ae4259aa1345947e7820c3002e8ff99da1b68f96f06992710cff4901034;
  0x714dd6fa798b4217cd5587ed318d244329a88fd7924edda4b0b2cd91e06de59f;
  0x7b802e4ad9b4c19ad71f5a77842df090d82c118082f82554955e79998270e5d2;
  0x711ab8544b95c3051bcdc7123e6f05325ca8f7f0a20d8e62777c6ecbcdb2457d;
  0x2db521fbde445cfa5ece97ba6bf77da4d7f8fd9371d7e36600da3c04337a636a;
  0x58efe1a99d65c77d9f3525860b563d787e2f6f968076adedbffbd55a054820e4;
  0xfd6fdb48c23670ba03b17bf48031d323913a32fb7570c37c7d82ec5c5505a44a;
  0x3f028c6405d385d55f627a5f799bfd2831aa27de0eecdc3ecfdf050cc521cbaa;
  0x038401b1dbfc593013f3cd73547a41606391508b2b08cd53f1be9f22a0040f81;
  0x238e78834efa7c218edf02915dd6344cde73552107b64c22ce781a021f328aa0;
  0x4d3a96021488cee01fd4b2f1eff6c3b5301ee0def7c958fe68a906c6164a1175;
  0xe9433eec1a1162ff19877df1ccdf0095339a9fd6215ac649b9dcb648bf1cb33e;
  0xf412d9d463f17058d52b2f8557b925450c0df4a06e279b5aeb52218709e8de10;
  0x3a2af378af4da18466ddf6200c8ece5ff0a6dd89c7557900323059414bece7b7;
  0x227fdbed201ca475df9a81792c4af8354f06de18b072f461af15df9a37b2ec9a;
  0x84ed79a3de7349f005a1d398d1cf15fe76d32a00d16c3fc6a87394110c8f2fe6;
  0x09d01cf93b3a79c5525ee48e90103ad08190e26f97058b88a47515d1b776b814;
  0x34e48b941d2985a81f489d8403877f2e9db50a5bbc44560031eb97f173aa669c;
  0x5b43553c9bb05c8a4d59d649d18682161f8d4d51b2c70d39696a9125013687ef;
  0x0d308e65926c2e006866a67f2d515774eb87046b11cbda51c0199d9d8dc65f9b;
  0x7ddcc39c49df61167bd7dae5dc85721a72c3ff65ca24ac27c958bdccba86f81f;
  0xbfb5f48a52eb910b56356a7b343bd4adb33a7fbc043f63c25a488e1b3f9c0bbb;
  0x5de4b9cfae90b872cd73c7b28d30e650bf481ad066dcbbf9239993fa509e9073;
  0x43f70c85599172c05b0ee3eaa23d179464f6fedb0509cbc01a65aa4d6726033e;
  0xec9c05b0d0c19be2949003e264a46c77e549c13a0b829bd062227252dc37e86c;
  0x6ea09947ccc819b42d7acabef5bd3d8fdd93ab771162256dd7cacf72a3193f37;
  0x67803232e155d8074826a692548a2b87483e0f57371b03f67a792fd16c6aba42;
  0x399d32a9330f59e9ad5a5f3e6e17599caedda59d9b5171167db31e935005acff;
  0x09cf137555939cb78f367612674e9c95f02b3179939d3f881f80a2441825d439;
  0xdb813969a99233d0920ebdcab8f85ebadbe19f62312b6bac934139548411d36f;
  0x53d002f88ec99a8a029b035dcfce3e77b7cc52efbf1ada4cec7bff3f9b7cfb75;
  0x059d0b0b4b56b46e068d97fd47bb0ba14fc0f9f9e5a9e33a698bfe181a021297;
  0x96f078537bda5ff77f9257485f61aead0da083ec684b96feb7b2278107aad593;
  0x83d544872ecf749129cd8106334df546fd353a3193a20e252d5abe62043a0110;
  0x5f68b8da865264ed99a1410bf406ce0e31a5ca534babf655e6dfe76d1382afa8;
  0x2776144afaa648e1df29d7b38d8efa2e2b81da97f205963dbd63a449c7167f14;
  0x8869e2a6ee32aa836b0a7bf308aa1b98a9674bd563d9a548f1b7c3d8055f046e;
  0x9b87683454de2e8200f21cd2a98d681f4f0490fcc931693685f1b8a1ff783277;
  0x50097705b1cd059044ed403275687ce910f54a127266ccb9085f65ab614a7472;
  0xc6b62846aaf8563eb52dd3c08e749d2c915ad4ef15de18dd7461156c328f2667;
  0x31fb771053970ade0061883c7d68929fa095df876ba0d31473be5bf172b6ca9b;
  0x1b30c53c9942c55411f49ac40bdaaeb89e1d552f85b86fab95956a3280226cdf;
  0x62817143fd573dfb3821625a380beed537a17d11adcf26a2d2b579bba0d93ec1;
  0x3dd2b396ec92634c7822dbfda12aec137f282b7ee83c034e220633df9e1093fc;
  0xacf42076794d849e25f85feec34eeb16ebe359439772fcab4cf0559cbde924c9;
  0x96839857e066ccc1c65a09dce79ccf1a1e4df0e151a483b7a718f6fb70e81d53;
  0x56637063c42ea3c812526d9033de055e29ef50a175e727a86ec1e1f1469fb805;
  0x5ef383d68d8ef4c26191fe46078d87814b480bd6d632a22b744c62bf3074f0d4;
  0xe77e5b564d8581bba931d455b9f26ec02cc63b7f165891ac937ed14d19ed821a;
  0x413d45f711bd49658c48bf9f369103eefb4ed69f8bb4c09c50a23f039537735d;
  0x1fafa6d4c8dcb9b119062c8a55ff9973bbab2f63e25f85b07f48d8f3c0d2293e;
  0xbe89533296f337004d6328fb4bcd70193fb9bdfb3eac0eddcd93e8863d8028ce;
  0x6d1cfe277bbb669c6864ec0b9f3dc6913c2ecb97eed266cafbde21e7dccabed8;
  0x33ee7c2cb4d26c350bff69dc18b1277519a9d60eaa59b753d08a62e92acf1f36;
  0x4915c36b9f3a22da709b11cddc53304133badbc25eb0121fbc667232944b9460;
  0x589393a8d47b9e102c14113e656b59c7ce78e22dd1b671050fd965c22c7401bb;
  0x4f277c980a77f91bbd944ad3bb35d5bf60dae01e09f778f021ebce50328b227d;
  0x3cf3b8402e3eeee5417a31c9bdd55b39aaaffca9823762f7f14170a82ff5c27d;
  0xcdfb2424ca574e87681468a098a1840d4ddfa01075e0cbf5ce1b95160c83a718;
  0x65acdaa382095b3c5c69a167f44d60cb2e2abd5c9ce493246aea785cf1ab0e89;
  0x149ad4070c895a35729ade7feb3879bba52007689929825b212cd93817d3cd9a;
  0x300fec1c44bd3a7cdf4333f03bf9558a118a46ca510e0787bb02f7ad21e6d0f7;
  0xa17138d152df268f3e999d2ac8f27474865f9a354c99289e919fdf0ec6895c3c;
  0x70304e295d18c05a162dfbc14a5d399defa406c0b7643e35bfabc761db4ca042;
  0x75634ae4fc102840ba4872a58fd6608a70ba5a63c28cc51ba7cc859629cbf025;
  0xf3f803867b8b8022ae308d391fc60d839dbd392d73c132fc7581cdac2d79627a;
  0x86c2f127d20ab23f0f16cc4d2d351188d5fdbe53b0ad891cfea03982ba09f20d;
  0x7a093c6ad95e7e5f7642c3eec9f932595948ea47f54e621d98d4e87b6a322189;
  0x3902086770d3d4cb05e457775e499f2bbb917cf1b0b73026b67e1af5b430998e;
  0xdd02169cd30cd5171a6c90c1173bc7ceea0ef65c74db2e7ee48c16d4de77c5b2;
  0xe240b46499f55ca3bdb114434364a66321206a5c9a72e4b61816246a54e4dc24;
  0x67fff60f248d3bdb3628248d8e4c12520a7d2a8763fef4933bd5bae334c126cd;
  0xd3f3e8418a80e96ce4ee16771b5de28cb0ed6b3f03e8b53e6e6f2cd6dac133d6;
  0xaf627aaac2d5a5538f3e6a7bd4fc7c0528b7171ba7e0b9f761e0291c723ac420;
  0xd27798c150d7a1c0457e58554f8e4e10afda9eabd6b750357127974e1382c530;
  0x5f73fdf5b8605918448cbb60dc39ea273dfa7439f63ed5e6e8c696bb29962965;
  0x5cc813ffcc867656286679011a741f849a06be898002a3f573a01d31594f6381;
  0x7d14358eeafb0a56e1b3ea88d4e8f09f8b17c745cc2bf8abc7087c5ac0e17a4b;
  0x390113e77209123d2f47eaab8fdd2b52f3f1ac421c4dbaf694ba89c75d9028a4;
  0xbfe68b3a225aa6807e11cb56d79ff873a097b3e97ab9b5ab2ccc7253320772b3;
  0x0f075347557a143daaec13e5200c99af8f377d5f0c1e63bdea71f625bbdca174;
  0xff6bb30457b48343af00ece3db04257cf990c120f6000fb4c44b79213ce38895;
  0x0dedd006f9041026546199870f780d75a5e4cb0b2cf478b1cb69e29016a6eddb;
  0xa6d375fc6312b8462edb9347490367341693a1911a1b2f1c8708cd65f42fea68;
  0xb42eb53d2d8c1ef96123a18333dd67598cd977f00d442dd3f9f855fa4b7867b8;
  0xa15fb7ae4b1fcdf3c09f11390906e5c33ef092e1b4e0e215070c57658dfa003b;
  0x97b6a1ffbdbd197151f2b9b7b5a6cbce6cec8362092151804fc429e9747276cf;
  0x0d5bd130dc18328ff286eda871cef12d8350dbcd7a181f3a2f93a062b1e1da79;
  0xcba7eb6a36260e3766a2ec3cfc1049c77a9444030c0a64e101a7b495ff427ce3;
  0xf4fc5c5f19b2062701059583364547f4f4dcdfae98616fe05f09c9cf32441817;
  0x8e3e6d6c2559369481aae88decaa14e970fbb0593187ff083398df7078a9b110;
  0x866770f95cd8de710faf614ee8c231667b7d4e1f0c319a39b47db5ec5e8bc8ed;
  0xfc34125152883258a2ea839993aac026efdc1d35e8eafe4b78140510024dd479;
  0x4a7a97a92554299156c2d07bf6285b7edaea2442f36b29a1a2f643158a7ec039;
  0x8318865cb49754f703f2ee77ef29604922566e2070ff8917ea39e5def0f3cdfb;
  0x831ae4b6b5d898d4e39a6de67a14eca0a1add9051f5f76d66982cf0c41a01ef6;
  0xb94733d2b75be0f1867bd164528190e5c6855428ff156c83e5dede0c351e66e4;
  0x00110f451753c7c1299ed6a41cf1305c5f8a6d1379ae29180220c72dc538b457;
  0x11044f9b4fa7d7b6321d976506d0197b4e9579e52fafc2eb4193b99f1b3ce5fa;
  0x895847556d20cd8f0baf8b70769e21a5c93a62344b22634ddb32517f92d49b2f;
  0xeecc7c9976fbbefe89263d3f54f2debc0a98f5bef0fb9b692ce8bf062cc40c07;
  0xed02c315bd05c76991af98977a81ed4fabbb80f6adc0b804da453d2a16e50cb7;
  0x8abffdaf8e57b4d2f49fc0e4017ddede090d173aac62f665b411c4f4d94353a3;
  0xef344599e480b221373862f1f376432e421c0cfe94c066067f0a7f9fc4ae3d9f;
  0xd7116d2036517ef09d65c16dcaab217605af17a36b33f637f037c0654ad94351;
  0xffd0ae8a8c7e6166b8062b98faa726b16f1cd59c5b5f9aecfa1f8809f7ab5b47;
  0x2d6db1540ed64cc030a52403f41fb2bea52428cdb321daa5eec731135dae8c4b;
  0x3bca425cefe53560c9c721ac2dee576ee910dd86058e915d9a826de57672f8d7;
  0x8a0c7abb7a2624e8434f26fcdf4284b8668f573c776dabed944c765f9e563a39;
  0x45ff7bf75e5b17c9f2b4bf6615c7ae3ac16006e751513c3aa94e06c31c26fd67;
  0xf5774fa7e8a60cc381c46b9f4fe1943d146ab0bca11aca2f65c37b2def2985b6;
  0xbb1ef87f8cd3347e27f86dc71885b2735942e74beb7558151a2ee4b34fb921a7;
  0xc61869758e13a5d31f86b52f60e4dd2788737e9aac8a26f7a6254cb188ee871d;
  0x503f22ea70ac2abf519671b4783f02e4236bd297e626b128e7c38fa9c12b3950;
  0xef0afeb62099579728c04222648c5942b62daf98e1a2bd95cdb2beae7f415c90;
  0x53e33e2e19124d84335a9bcee2181e66ad3b3a483162cb43e1a570bdf73db0a8;
  0xe11996fd6dba8f88daeea8a621ac1749108d8c795f6ddface936270530bdceb0;
  0xc86986732fe735e228c0ce6a7120ea8b31f88973ef82774a7429f14fc49443ad;
  0x532dffa15922b39e616e693cfcb727bc34975c2a7ea3d4549ef400f2c27dbaa9;
  0x2cc8c9c5cbf6590463b29777bf3e11ad47462503433b9c93e45605f46cbc3ff7;
  0x01571fe51b3fc8841bbe6152241184901f28fa8c46f1221e6b837fd21a89d2f6;
  0x77ab4eac82c25f03f4550206abece61c583755969cae872ed8732aae5c3cd725;
  0x72b59268f409a02c4849e478fb12113e265f9c7258e02eac40fe15a893bcf300;
  0x48c734b3d8f27268dc09ffdce5935ca1c55615907a99c1061c16356805e2f684;
  0x69e62b2bf0cca853dd2524a90a7276a8e584eb6606871c23d7d0d606b34eb8a8;
  0x67d55f2319739fabad9fccf6d0116fb4905950fc7e89603e7238796a4b902621;
  0x1d76aeee05f0ce0d7c16e71d345ab92e39cb7e5ed78c80d4ecf431ed042f38a5;
  0xa7c3ccbc954c23eeab9e0b0a9685a9d09b5ba91f1c369bd849c5cde41edacad2;
  0x6b4cb44fd42ad90fd1c48e8a1e7635961521a580ae6bc1adfab3bc4d55cf644a;
  0xb57aee6709052e003920ba773c9a858fd05c08c7bcf129c6fbcca7ad04a967a0;
  0x34769dcef5951858c38e4f566aa0749b3fe3f682bb0156b66f063850a2ef3af5;
  0x60f647cd8d43e7d0b7a49ff8c363295c1bb913422084add50349bb6f59b2653f;
  0x7d777107286c62404a70ddab6a59c3fdfad26427796f9e29a29075109680df47;
  0x23b7d93895aeb38f89b0af65d9b90ee7f69f9c5eb8e1dfcaf76c98b755ebed37;
  0x44a417f0ade472045ef3dd46b0af448b9ce6d3a40731b9f52d5f1238ea5f32f8;
  0xb141f697468abb8a020010c2b168c34e9f66626121684597d2917b3350b019f9;
  0xae0db4b8793c231cc7fffabf8d9ef0a449b9e34f0f07402f563a8101e5050464;
  0xd245152f352b8284a4a150ce9012949fca973f302562e77522365d2c765e1b17;
  0xaac4eea48fa2853810afe203e9b3a2e6d37d92623da1375632d3a78945a31984;
  0x40abfc675e117ba6b23c5065842ca2511ea6306b6ad3134d4158a096661a7a42;
  0x077ff6f91b00b61c488e78230998081962740880f1ac44d5e75d82f14f707cfb;
  0x5854d926ea6f8ba6ac6636e00ca372409053d4021a66734d1bf36805f70c1055;
  0xb9f04b0f89fed9ff6219216fa1809ba6508e13216d4be0710904ef2988376202;
  0xae29ef603ae829ef4dda1148e88318c73feb037a1173c1adf828f83d286ccfc5;
  0xf54eb8642813736d87e43b9d6566d43a2476f311f6f7dae984a5956c0e9202e9;
  0xca2810ea5e17ee2544beb31e4afa9c9cc178695258211fd6c84cab3d7bc993a7;
  0x4d737ea3a152ee9db5896b542b5dcded8f4f730729031ec0a3cb22506b957728;
  0xe34426aef7d1c21403c4b72c215ebb33a120fb7ad0780ec60bdd59631076fe00;
  0xf8301513c51c4165165d3a0fd4f62be1fd9dab05c602572703c892f88aab25da;
  0xc2ca133e88dd77d23cd3482ddf8a1b7c2ef34317019841ddfecd69cc8abba979;
  0x04a49bd36550033e2d53e71b1fd815cff27a449d2f4262789d5b71ea7c46dd3f;
  0xc9c33d572de2a910aea6bbd78c47c34ae745142cdf6c0f57abb23e6fc37526c0;
  0x0e076a600aa6ab628b622f6d910dd0f143d5e39c48d9cccee2b1bf9e34c8b20a;
  0xf0e147d53776cbec309b174b0c4f9dce177d6894519a52bee2a7c78a2aea07a0;
  0xc27170d074fcf596d5f32d32485c316da73e2bb6d20f0227ea2a39d11586240c;
  0x5407bcded605c1eb95169988bd6277785fda96175ddb68135df45d2f331b1510;
  0xd3949b382e35ff5e261d21b70ccbd6a8749849cd587e5c3dd3a7f1080cc7444b;
  0x942ade6d943b0e9f766185bcb91dca761acd0e5256d6cc9eeecfeec5d8849a82;
  0xcb0be899669939c0d731a4daa4d33eaa5358239664a1c0b0aa7f52ec54bdd1e2;
  0x972be2980fc39b96484b9b4b660cdaa98c2ccec9e36103af80213c943f4e5696;
  0xf4dd9276820ffeec36a402c432ab231925bda59503779329c9fe7f28caea21d2;
  0xf6be05f128c40e26c97cb33855e71592a668b2a1f865c133d1cba5b98bf6fb73;
  0x43aefbc66427c786cfc904904f03f300e09c12da736e74579a836a0819c733b5;
  0x090cd9adf76edd9367d1c36e3c57e1135bd85d59f3a1db3ecf8dc380bf0457f4;
  0x21cc512271aa63c7f8781952b31f152823cf84655f50f4bea7968d0ffa6b9ec6;
  0x0e212fa4bd564af9944d7294ef57af658656fe8fe410e4d34fd08f3269853616;
  0x9b8ebecd92b097b9633ffca3dc3c26bfc7b63ba3d5547957085dd445ec212fe5;
  0x0974134ce85c339c72b1faac0e5ae160389834905947b8dfbe1bcf39e85f45a2;
  0xea5ed8ac95b55582a67962e88eb7b84c7901ce62db9f6059449e33267ca401c1;
  0xed70bd311afd45d1226eaee59b52e803b145604dde499cd01a3dc61d6d56d3f8;
  0xbaa7fc03acad12f7d0c749589f9eb7b89f862cca8e7b7f46034cf0c02206ea93;
  0x7ea0088deb076046adffe771ffeb0ada5c1b74b6b2e77e3968d632dda46bca4c;
  0x7980f3dcb26a8daa1c3fde3f14d0c6619e3ec6955737958123aa2eca773cbcb4;
  0xb5015d98d4078f1bb2e9736ebfdeaa785c2c686c62ee7fa8d88a6388f990fc51;
  0xa05e0180c8f53eeabd9db6b746558c6a56aaefd83cccde3cea3fe6bae5f31bc8;
  0x9a9865a07b0ceb06e276e1c32a5c419054296f850d8280534747e755690fa65b;
  0xb5167769dd294d96a8e933fc1364493f877d2b199313340a15a189d604337865;
  0x46ce3824393d151982030a92ddad0f29241f15e5a16b9ad5b4722aa1c620471b;
  0x1d2e126b82f88b52ee55132c328ea174646aae1d4596f512fac2bc768bf99087;
  0x241ec1a8f6b83c84b092f6c6543a5d17f36740f1625aa20bdaa75311f157d3bd;
  0x8fedcaa0afaaf39ac9c4f566e877b2fb7d096e5fa9e10e1588dcc78fa3d478ef;
  0xa76d0149ed2b8c9d0a3088d1eb9e6bcb5f55a24848bbf9e8572c8204e10e1d90;
  0xdf39bc6ea15071b75dfa15ae118f98c0b0649c6927a6893c3650bca592806398;
  0x096dd35697460da8bca6a3a20081501e06376e9080ed25bd7380f7f48a580951;
  0xcfaba91336fc1504cbb701f5b242e126a72830943f36f7cd7c8d90a14165cb47;
  0x57418f662d4574c5bedb2674c0722af5a74ce91ef8e7fbf4992b7cfb37498374;
  0x569b86e1731f40986fc081287bbda7cbcbf2806ada93b3daa1ef1cd3ecff3490;
  0x7694d5d2507d9b757a718939c2811a54a1b3db1752b0482b241e785a4c026da6;
  0xff2136cb40fa2fb77d2b9a74db829a276c964b5aefb0aa24ebc69635df75605c;
  0x52b2fa20fa6fe8c49c26fd298a7756ca66f6be54a3aaa5df4296bb0c0c75258f;
  0x7b9d4ad9de7ed1c1d3a59c82af0e39ba31a81529afb9c9798e91af7492bd06b1;
  0xc3417417a57b6c253cb354b6a259d55f70b1593e609bde13cfb1784a88a21bbe;
  0x8d91ce3448d2f43271fedd81e3f463e3f49c3783284887d92fe18fecadd5e488;
  0xe0ca5c1054294d98ffa6f3c8e939ec291e1f11f6e939f3ef50e8f5053a54dd27;
  0x269ad176318695636e9fb3e3305ab5be6735f45380ace2beb19d73f5f1cd0af4;
  0x72a0816b9fb7b297833009e86ab768f57111fa04d3ccdce4717f3138e6994b05;
  0x5020034f2349cbfa3e364fc20ca78a4900f36e5ce939bf24563e64b38606c6a3;
  0x75a0bf98266b6810fc5f2a5e3c535bad6364320d18426f0d748f7e439f17dc10;
  0x669cd84548d479a360ac7125c2826cf748743a5184528a4840845b938836f1ab;
  0x5bb295af5134cf89e607a0c25be4bfa7c6497e459bfb7d713d661eaaa0f0d80c;
  0x6e8bd18e8a7fe7d4f59c9e9e2f359e5dd74b8361f97a9aee20be0088452a02bb;
  0x0b1a19a97db82d2af488ee7b0fcceccbdf6fc4efa29e3b8f9e468251f01b1016;
  0xec9d6ccd9208e5a996352b040e5374892d4ab8be450866b1525b126b196c1a35;
  0x730ab5e1058e9b523ef08f0102e05e98cdbe01f30bc0e4097bf7ddcc50ba5ca7;
  0xe85cf32303cf822e20d9467e594d1c6259ec1762617e8cd62e8dd72e338977f3;
  0x84ca37d175685d75be83e999ce9aa3683d46ba3e2f3fa49cfda3ecb581ff8958;
  0xb1642a4781fc4a4e94e744ac37810dd9e5cce6b77c30689eba2122ee4cb08d36;
  0x1ab74f7ce9f55204e5ead5add6b90b45e51bec3cbcc216d3d800784ac236d022;
  0xa9b09ebec1ebb0131860d722d4bf3bc25a7297310b0da010a0ef5a157c6feff6;
  0x7c5e0c1f481b08ac3cc84deea902d3227328ce50bec4191b6585093f52f7cc20;
  0xa5ee01a079cd682f06d4cbd5b37fc3c61551499a54160d22ac0fd11b3f6a03cb;
  0x6690f24fddc95d48d6afd86e990aa9f2534e536c3082c6ce88fb0b7d5d0757b3;
  0xdd2691cf55a3e7dd379d3890f74bffa0b1ab099860fd8da15aed80f048195153;
  0x093663eb7903a607e9d30b5983cdb715e1c6ead97000b46080cfc2f90097e6b4;
  0x6aecacf11fd2fd5caaf6a35e198dc0fc1f30b16f6064840b462195ce90b1f8fe;
  0x15c5c42e9debf3647290044a31a1f672bbcc7f3dc7048503300cb0e2fe30fad0;
  0x40e2fc016cc8b5cffbaf1381a660bb1e3803b0d80aff8e159d09562f94cd3792;
  0x26ca6a73e931d6fe74fc9f0b02173e5072e8f1881ba16f3c605ad9e48dd05a4a;
  0x8976f0bad2c5d78531610d417a6e2cc96c7d51239809e30a676ac54be192da88;
  0xe4ae12694cc72648b7837d75f6aef036e08df0fd258e8ce3f3f87eb65c4f54be;
  0x811363a33103e68fb503aeaabc42595f305a34e9f72fa2430374f352af13e909;
  0xa059c7abd1c14ced8a01988c91cfa14ec959a64302633e607fb8931e27efe999;
  0xa0e8a40bf7cb119d6d1564645fecc4a1345b53116df28f68df736d3da09857c9;
  0x318b4780dbc4338f8acd430856535664ea56caa10ce017267dd7981d01d48493;
  0x06ff6557dd85fa9a255d1ea7a72675f2ac614b70dfe9979c7e79c9493d9d8246;
  0x3783ada50b96e66ddecb12776db11acb64663c5eeb01d806df1884f04f9baa88;
  0xecd1886f18f5b0594c45166abcc5235a33901cfc62455bc4997feeb62870e09d;
  0xaba7d1c3e9817c3d468f34d997ebef0739e0318e7195356affecdd2e93b1dfb3;
  0xabe94eac7b73b78f2d266da99f54f03a43109bd40cb7c498937a7b13da0acfa3;
  0xee5014bd125685283fd87901268e875f2553fc6ca987b939052418873912042e;
  0xf805bb622b3db6f4c59aee47b1425dd441523b61ca2641d16af24b7fddb2fad3;
  0xb52d946e61a58dd9d2d6e678094b97b24a394d30133e3832ac2606750a286173;
  0x781b3663e93175c374ef0ff8da64e0c040977940cfb26758c606e905545a956f;
  0xcd4b91da48532a101be25dc2d3c1c9145eaab3f41cf51a07aa15b49fee344c9e;
  0xdd331cce30da7ff1ceac32fe755103ebdf9269a083d9fe2d46a233438207ee8a;
  0xd8e88b0dba85d770c4776d581eb52e7a5b1830a1c1e7e55c069ae130ac106698;
  0xb0d82a06da16534c9433157a8cccfd658a6653c1cd808678d71c18cffb8fb1b2;
  0xb7ed13718bdee10032d26fe4eca6069b3220664a40e60fa07d261a74d39868ed;
  0xc959152ab7c76d7cc59b4058a95e28a8e6f1dbb9f3c132c40002510c2e27ad43;
  0xf0355086635f97881de789d01ed63fbaa902eb824390340fd35546c5eeff757e;
  0x8111e133b98e14e226a5cc37fa37d95dd51d2daf9f21fa6e88acead575bfcd5b;
  0x4c905f7f3bb3c54978af1e6947addd4debc49078f9fcf4b59b2042a9bfeead7c;
  0xb0a84ac9196cdfb51c0446422e57fe4499b52b5dd209d4ecc5bdc8ef24041847;
  0x146d0dad22961b7c6676ae41c38d78f43bd1d9a49c97787457f62117c729edf1;
  0xa75a0d979a6290b8f4874dae9dec5b139607de6aed88895f5694a786117d9930;
  0xb6883cab3ba3fc183145b9fb3ffb4183f75b427ece440d3ebbf98c251d4f0fe9;
  0x87063829d2151c0bdbc54e22abf6dd0214989d388b3493cc40fdb5075b6266b6;
  0x373f380a4b5dc32288717dd6b92c3bc4b3e3be882fb7b9ee88ed894660cbe395;
  0x4f7ee85cdff9c42711aae839e0cc599d3a28b6a0b9e615a58801b90bee354b7f;
  0x0a183bc9f4a87052c7aac83b395d3f81dc48190484327425ac69afdd8dd8ee2e;
  0x896630a54902818e6d7ed2c0b369b85405cdd7206c2f15f09b16ba29007b29df;
  0xdf70a4e3c915cc28f8df30e03a7ee10b2a79664ab2c413b5a0ec93b92a384ba7;
  0x0bb8fddfa1484c7ba4414d0029c90834b2c91e74bf862d3e378b578bcc226c26;
  0x94b8d6cb631c06997489efe297f7d5f00db7f28aea292444f60e5e1b60447e35;
  0xb8f779d14c1b807305241b534311a633cf372b9351540727008885fe32315bb0;
  0xd886d749887e6f9f550c8566e7d43db64ab1017adc60f961e584d8312663ea98;
  0x1638f7d5b86267f185bac3f2754881df2f6e026ab165213d89237a11e5e9f75b;
  0xf75ce57dc887c1ee02e3884363361b26ee6ad7f9dd25e12b5ea7ab62856b59ba;
  0x57575f6aa66c64997e9d7d4dfc0f3934ed27e075ab8d2d7b774977e909a418b8;
  0x18ffa2aa37776e9f1d2821d4609175175a75f0a6a67d67ba018851bfa34dc2f4;
  0x6f744b53f2a2616083da3878cb7d8c04a77475a404ef4c3c0e030ddb637e474a;
  0xfe763f495b39d164cf07af7142512698eda80fe93be900e53690e503854f3b7c;
  0x4e72ffd0ef3ca6738d813307c3055e46d2aa7e58c1f6bf12d2d7002ea3a35cb3;
  0x0ee822a65856da131393c5d6224b1c8a1e9a095fb3699a93edddb9131d9287d4;
  0xb0ec75641f9580713e10f9493bada381246446e294adeb58b34933a6f3c62f3a;
  0xbb3cea8502efc27a1d0d38eed59fde1e7ba031eb7aaeb7864e10b7d483e8a46a;
  0xe0fc9a9dcfb23bf6909f9c528e526cfa176d88a2930d49fc6d3e4ed923250ba0;
  0xf622f43399d95126b1fdc53c13e9635ebf74e80c8106e668dd29d20136968a7c;
  0xb3da02792b817cfe861d5c89930d601e2a816389c2676ebd90f6d874ba967fb4;
  0x2a95e7960bf146ff718e54eb890dfbd600d9e54b8fda0dfbef984cde8a6fc16c;
  0x92a6952bfe22933ad1c30c4f084592c14b3632565b0fc69319ced26a1cd48903;
  0xd6d80725e18c8005c49ec3108f1097bc489602efaee32eebc705cfbd7002cca9;
  0x3e2180ee859d942a9b5cf217e8f7862ba9b7dd471f3163ade1071c7eda794bfd;
  0xdf870e976e46f569fb52c94dbed6ea31fe5175f9d010779eada4fb0c9f7fe4c5;
  0x3708fd18ddf03ff4730f9b41fd6587abe73854f2154a691af41940cded432312;
  0xa268e25ae28175cf356c038345c99393f8062bfe81a0cc7ce08229a5895019da;
  0xf9dcb1453c56bf3fea186d3c0b834cf3049ef90006bee7d945bb4d1dc270d04b;
  0x169e9313924e3f434c610fd52dcd1a75c82d7f25e35ece23a225dd01036664bf;
  0x91d5271f7d8c57047471e3e8bf5517d108f8131aca82dcb3baeb652589af2433;
  0x245b680eb8bdb5c180657be99d22a19d2d42d4a796ec52067fb459be4475c51f;
  0xe1d9cc01b1e4313bf636e3573dd79c0b09888b1df3eb7bb4765da2a4c84b014b
]%N.

Definition holder_x : N := 0x0b035229675d127cddcacb815b46a2436aef265f140cbea8e75a977aec358286.
Definition holder_y : N := 0x10d944eb64b1cec93018cbb73e8ab44833510b147b3f8b61ca8c5d5110e89c7b.
Lemma holder_climb : match holder_key with
                     | Ok k => match climb k slopes with Some (a, _) => ((fst a =? holder_x) && (snd a =? holder_y))%N | None => false end
                     | Err _ => false
                     end = true.
Proof. vm_compute. reflexivity. Qed.
