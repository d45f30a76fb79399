(** * ProofScriptFloat3: round numbers of the shipped instances in spite of rounding errors (C75) *)
From Coq Require Import Reals Lra ZArith Znumtheory Zpow_facts.
From Verif Require Import Base Field ModelFields ModelInstances SpecRounds SpecDouble ModelScript ModelScriptFloat ProofDouble ProofScript ProofScript2 ProofScriptFloat ProofScriptFloat2 CertScriptFloat.
Local Open Scope nat_scope.

Definition rounds_fl_claim (p : Z) (t d rf rp : nat) : Prop := forall n, bits n p ->
  (exists sat, ranged sat p (Z.of_nat n) (Z.of_nat t) (Z.of_nat d) 128) /\
  (forall sat scale, ranged sat p (Z.of_nat n) (Z.of_nat t) (Z.of_nat d) 128 -> scales scale ->
     find_FD_round_numbers_fl sat scale (Z.of_nat t) true = (Z.of_nat rf, Z.of_nat rp)).

Lemma claim_fl_intro p n t d rf rp T ks : bits n p -> rounds_claim p t d rf rp ->
  clear_ok p (Z.of_nat n) (Z.of_nat t) (Z.of_nat d) 128 T = true -> away_ok (Z.of_nat t) (Z.of_nat d) 128 ks = true -> rounds_fl_claim p t d rf rp.
Proof.
  intros Hn HR H1 H2 m Hm. rewrite (bits_fun _ _ _ Hm Hn). destruct (HR n Hn) as [D [H _]]. split.
  - destruct D as [s Ds]. exists s. apply exact_computed; [lia|exact Ds].
  - exact (rounds_fl_ok _ _ _ _ _ _ _ _ _ H1 H2 D H).
Qed.

Lemma claim_fl_babybear_16 : rounds_fl_claim p_babybear 16 7 8 13.
Proof. refine (claim_fl_intro p_babybear 31 16 7 8 13 _ _ _ claim_rounds_babybear_16 clear_babybear_16 away_16_7). split; [apply Z.leb_le|apply Z.ltb_lt]; vm_compute; reflexivity. Qed.
Lemma claim_fl_babybear_24 : rounds_fl_claim p_babybear 24 7 8 21.
Proof. refine (claim_fl_intro p_babybear 31 24 7 8 21 _ _ _ claim_rounds_babybear_24 clear_babybear_24 away_24_7). split; [apply Z.leb_le|apply Z.ltb_lt]; vm_compute; reflexivity. Qed.
Lemma claim_fl_bls12_2 : rounds_fl_claim p_bls12 2 5 8 56.
Proof. refine (claim_fl_intro p_bls12 255 2 5 8 56 _ _ _ claim_rounds_bls12_2 clear_bls12_2 away_2_5). split; [apply Z.leb_le|apply Z.ltb_lt]; vm_compute; reflexivity. Qed.
Lemma claim_fl_bls12_3 : rounds_fl_claim p_bls12 3 5 8 56.
Proof. refine (claim_fl_intro p_bls12 255 3 5 8 56 _ _ _ claim_rounds_bls12_3 clear_bls12_3 away_3_5). split; [apply Z.leb_le|apply Z.ltb_lt]; vm_compute; reflexivity. Qed.
Lemma claim_fl_bls12_4 : rounds_fl_claim p_bls12 4 5 8 56.
Proof. refine (claim_fl_intro p_bls12 255 4 5 8 56 _ _ _ claim_rounds_bls12_4 clear_bls12_4 away_4_5). split; [apply Z.leb_le|apply Z.ltb_lt]; vm_compute; reflexivity. Qed.
Lemma claim_fl_bls12_8 : rounds_fl_claim p_bls12 8 5 8 57.
Proof. refine (claim_fl_intro p_bls12 255 8 5 8 57 _ _ _ claim_rounds_bls12_8 clear_bls12_8 away_8_5). split; [apply Z.leb_le|apply Z.ltb_lt]; vm_compute; reflexivity. Qed.
Lemma claim_fl_bn256_3 : rounds_fl_claim p_bn256 3 5 8 56.
Proof. refine (claim_fl_intro p_bn256 254 3 5 8 56 _ _ _ claim_rounds_bn256_3 clear_bn256_3 away_3_5). split; [apply Z.leb_le|apply Z.ltb_lt]; vm_compute; reflexivity. Qed.
Lemma claim_fl_goldilocks_8 : rounds_fl_claim p_goldilocks 8 7 8 22.
Proof. refine (claim_fl_intro p_goldilocks 64 8 7 8 22 _ _ _ claim_rounds_goldilocks_8 clear_goldilocks_8 away_8_7). split; [apply Z.leb_le|apply Z.ltb_lt]; vm_compute; reflexivity. Qed.
Lemma claim_fl_goldilocks_12 : rounds_fl_claim p_goldilocks 12 7 8 22.
Proof. refine (claim_fl_intro p_goldilocks 64 12 7 8 22 _ _ _ claim_rounds_goldilocks_12 clear_goldilocks_12 away_12_7). split; [apply Z.leb_le|apply Z.ltb_lt]; vm_compute; reflexivity. Qed.
Lemma claim_fl_goldilocks_16 : rounds_fl_claim p_goldilocks 16 7 8 22.
Proof. refine (claim_fl_intro p_goldilocks 64 16 7 8 22 _ _ _ claim_rounds_goldilocks_16 clear_goldilocks_16 away_16_7). split; [apply Z.leb_le|apply Z.ltb_lt]; vm_compute; reflexivity. Qed.
Lemma claim_fl_goldilocks_20 : rounds_fl_claim p_goldilocks 20 7 8 22.
Proof. refine (claim_fl_intro p_goldilocks 64 20 7 8 22 _ _ _ claim_rounds_goldilocks_20 clear_goldilocks_20 away_20_7). split; [apply Z.leb_le|apply Z.ltb_lt]; vm_compute; reflexivity. Qed.
Lemma claim_fl_pallas_3 : rounds_fl_claim p_pallas 3 5 8 56.
Proof. refine (claim_fl_intro p_pallas 255 3 5 8 56 _ _ _ claim_rounds_pallas_3 clear_pallas_3 away_3_5). split; [apply Z.leb_le|apply Z.ltb_lt]; vm_compute; reflexivity. Qed.
Lemma claim_fl_pallas_4 : rounds_fl_claim p_pallas 4 5 8 56.
Proof. refine (claim_fl_intro p_pallas 255 4 5 8 56 _ _ _ claim_rounds_pallas_4 clear_pallas_4 away_4_5). split; [apply Z.leb_le|apply Z.ltb_lt]; vm_compute; reflexivity. Qed.
Lemma claim_fl_pallas_8 : rounds_fl_claim p_pallas 8 5 8 57.
Proof. refine (claim_fl_intro p_pallas 255 8 5 8 57 _ _ _ claim_rounds_pallas_8 clear_pallas_8 away_8_5). split; [apply Z.leb_le|apply Z.ltb_lt]; vm_compute; reflexivity. Qed.
Lemma claim_fl_vesta_3 : rounds_fl_claim p_vesta 3 5 8 56.
Proof. refine (claim_fl_intro p_vesta 255 3 5 8 56 _ _ _ claim_rounds_vesta_3 clear_vesta_3 away_3_5). split; [apply Z.leb_le|apply Z.ltb_lt]; vm_compute; reflexivity. Qed.

Theorem p2_round_numbers_fl I : In I p2_instances -> rounds_fl_claim (qi_p I) (qi_t I) (qi_d I) (qi_rf I) (qi_rp I).
Proof.
  intros H. unfold p2_instances in H. cbn [In] in H.
  destruct H as [<-|H]; [exact claim_fl_babybear_16|].
  destruct H as [<-|H]; [exact claim_fl_babybear_24|].
  destruct H as [<-|H]; [exact claim_fl_bls12_2|].
  destruct H as [<-|H]; [exact claim_fl_bls12_3|].
  destruct H as [<-|H]; [exact claim_fl_bls12_4|].
  destruct H as [<-|H]; [exact claim_fl_bls12_8|].
  destruct H as [<-|H]; [exact claim_fl_bn256_3|].
  destruct H as [<-|H]; [exact claim_fl_goldilocks_8|].
  destruct H as [<-|H]; [exact claim_fl_goldilocks_12|].
  destruct H as [<-|H]; [exact claim_fl_goldilocks_16|].
  destruct H as [<-|H]; [exact claim_fl_goldilocks_20|].
  destruct H as [<-|H]; [exact claim_fl_pallas_3|].
  destruct H as [<-|H]; [exact claim_fl_pallas_4|].
  destruct H as [<-|H]; [exact claim_fl_pallas_8|].
  destruct H as [<-|H]; [exact claim_fl_vesta_3|].
  destruct H.
Qed.

Theorem ps_round_numbers_fl I : In I ps_instances -> rounds_fl_claim (si_p I) (si_t I) (si_d I) (si_rf I) (si_rp I).
Proof.
  intros H. unfold ps_instances in H. cbn [In] in H.
  destruct H as [<-|H]; [exact claim_fl_babybear_16|].
  destruct H as [<-|H]; [exact claim_fl_babybear_24|].
  destruct H as [<-|H]; [exact claim_fl_bls12_2|].
  destruct H as [<-|H]; [exact claim_fl_bls12_3|].
  destruct H as [<-|H]; [exact claim_fl_bls12_4|].
  destruct H as [<-|H]; [exact claim_fl_bls12_8|].
  destruct H as [<-|H]; [exact claim_fl_bn256_3|].
  destruct H as [<-|H]; [exact claim_fl_goldilocks_8|].
  destruct H as [<-|H]; [exact claim_fl_goldilocks_12|].
  destruct H as [<-|H]; [exact claim_fl_goldilocks_16|].
  destruct H as [<-|H]; [exact claim_fl_goldilocks_20|].
  destruct H as [<-|H]; [exact claim_fl_pallas_3|].
  destruct H as [<-|H]; [exact claim_fl_pallas_4|].
  destruct H as [<-|H]; [exact claim_fl_pallas_8|].
  destruct H as [<-|H]; [exact claim_fl_vesta_3|].
  destruct H.
Qed.

Lemma security_margin rp : (1 <= rp < 2 ^ 20)%Z -> (exists k, scaled rp k) /\ (forall k, scaled rp k -> is_ceil (1075 / 1000 * IZR rp)%R k).
Proof.
  intros H. split; [eexists; apply scaled_exists; exact H|]. intros k Hk. apply scale_ok in Hk; [|exact H]. 
  assert (A : (1000 * (k - 1) < 1075 * rp <= 1000 * k)%Z).
  { rewrite Hk. pose proof (Z.div_mod (rp * 1075 + 999) 1000 ltac:(lia)). pose proof (Z.mod_pos_bound (rp * 1075 + 999) 1000 ltac:(lia)). lia. }
  destruct A as [A1 A2]. apply IZR_lt in A1. apply IZR_le in A2. rewrite !mult_IZR, minus_IZR in A1. rewrite !mult_IZR in A2. split; lra.
Qed.

Lemma prime_5' : prime 5.
Proof.
  apply prime_intro; [lia|]. intros n Hn. apply Zgcd_1_rel_prime.
  assert (n = 1 \/ n = 2 \/ n = 3 \/ n = 4)%Z as [-> | [-> | [-> | ->]]] by lia; reflexivity.
Qed.
Lemma not_double_1075 : ~ double (1075 / 1000)%R.
Proof.
  intros [m [e [_ [_ E]]]].
  assert (P5 : forall j, (0 <= j)%Z -> ~ (5 | 43 * 2 ^ j)%Z).
  { intros j Hj D. apply prime_mult in D; [|exact prime_5']. destruct D as [D|D]; [apply Z.mod_divide in D; [discriminate D|lia]|].
    apply prime_power_prime in D; [discriminate D|exact Hj|exact prime_5'|exact prime_2]. }
  destruct (Z.le_gt_cases 0 e) as [H|H].
  - rewrite p2_IZR, <- mult_IZR in E by exact H.
    assert (Q : (43 = 40 * (m * 2 ^ e))%Z) by (apply eq_IZR; rewrite (mult_IZR 40); lra). lia.
  - replace e with (- (- e))%Z in E by lia. rewrite p2_neg in E by lia. set (j := (- e)%Z) in *. pose proof (pow_ge_1 j ltac:(lia)) as J.
    apply (P5 j ltac:(lia)). exists (8 * m)%Z. apply eq_IZR. rewrite !mult_IZR.
    assert (R : (1075 / 1000 * IZR (2 ^ j) = IZR m)%R) by (rewrite E; field; lra). lra.
Qed.
