(** * ProofScriptDouble3: round numbers of the shipped instances, computed with binary64 numbers (C91) *)
From Coq Require Import Reals Lra ZArith.
From Verif Require Import Base Field ModelFields ModelInstances SpecRounds SpecDouble ModelScript ModelScriptFloat ModelScriptDouble ProofDouble ProofRounds ProofScript ProofScript2 ProofScriptFloat ProofScriptFloat2 ProofScriptFloat3 CertScriptFloat ProofScriptDouble ProofScriptDouble2.
Local Open Scope nat_scope.

Definition doubled (sat : Z -> Z -> bool) (p n t al M : Z) : Prop :=
  forall rf rp, (4 <= rf < 100)%Z -> Z.even rf = true -> (1 <= rp < 2 ^ 20)%Z -> sat_double p n t rf rp al M (sat rf rp).
Definition rounds_dbl_claim (p : Z) (t d rf rp : nat) : Prop := forall n, bits n p ->
  (exists sat, doubled sat p (Z.of_nat n) (Z.of_nat t) (Z.of_nat d) 128) /\
  (forall sat scale, doubled sat p (Z.of_nat n) (Z.of_nat t) (Z.of_nat d) 128 -> scales scale ->
     find_FD_round_numbers_fl sat scale (Z.of_nat t) true = (Z.of_nat rf, Z.of_nat rp)).

Lemma claim_dbl_intro p n t d rf rp T ks : bits n p -> rounds_claim p t d rf rp ->
  clear_ok p (Z.of_nat n) (Z.of_nat t) (Z.of_nat d) 128 T = true -> away_ok (Z.of_nat t) (Z.of_nat d) 128 ks = true ->
  sizes p (Z.of_nat n) (Z.of_nat t) (Z.of_nat d) 128 -> rounds_dbl_claim p t d rf rp.
Proof.
  intros Hn HR H1 H2 HS m Hm. rewrite (bits_fun _ _ _ Hm Hn). destruct (HR n Hn) as [D [H _]]. split.
  - destruct D as [s Ds]. exists s. intros a b Ha Hb Hc. destruct (sat_double_exists _ _ _ a b _ _ HS Ha Hb Hc) as [r Hr].
    replace (s a b) with r; [exact Hr|]. apply eq_true_iff_eq.
    rewrite (sat_computed_ok _ _ _ _ _ T ks a b r H1 H2 Ha Hb ltac:(lia) (sat_double_computed _ _ _ _ _ _ _ _ HS Ha Hb Hc Hr)).
    symmetry. apply Ds; [lia|exact Hb|lia].
  - intros sat scale DS. apply (rounds_fl_ok _ _ _ _ _ _ _ _ _ H1 H2 D H). intros a b Ha Hb Hc. apply sat_double_computed; auto.
Qed.

Lemma claim_dbl_babybear_16 : rounds_dbl_claim p_babybear 16 7 8 13.
Proof. refine (claim_dbl_intro p_babybear 31 16 7 8 13 _ _ _ claim_rounds_babybear_16 clear_babybear_16 away_16_7 _); [split; [apply Z.leb_le|apply Z.ltb_lt]; vm_compute; reflexivity|repeat split; (apply Z.leb_le || apply Z.ltb_lt); vm_compute; reflexivity]. Qed.
Lemma claim_dbl_babybear_24 : rounds_dbl_claim p_babybear 24 7 8 21.
Proof. refine (claim_dbl_intro p_babybear 31 24 7 8 21 _ _ _ claim_rounds_babybear_24 clear_babybear_24 away_24_7 _); [split; [apply Z.leb_le|apply Z.ltb_lt]; vm_compute; reflexivity|repeat split; (apply Z.leb_le || apply Z.ltb_lt); vm_compute; reflexivity]. Qed.
Lemma claim_dbl_bls12_2 : rounds_dbl_claim p_bls12 2 5 8 56.
Proof. refine (claim_dbl_intro p_bls12 255 2 5 8 56 _ _ _ claim_rounds_bls12_2 clear_bls12_2 away_2_5 _); [split; [apply Z.leb_le|apply Z.ltb_lt]; vm_compute; reflexivity|repeat split; (apply Z.leb_le || apply Z.ltb_lt); vm_compute; reflexivity]. Qed.
Lemma claim_dbl_bls12_3 : rounds_dbl_claim p_bls12 3 5 8 56.
Proof. refine (claim_dbl_intro p_bls12 255 3 5 8 56 _ _ _ claim_rounds_bls12_3 clear_bls12_3 away_3_5 _); [split; [apply Z.leb_le|apply Z.ltb_lt]; vm_compute; reflexivity|repeat split; (apply Z.leb_le || apply Z.ltb_lt); vm_compute; reflexivity]. Qed.
Lemma claim_dbl_bls12_4 : rounds_dbl_claim p_bls12 4 5 8 56.
Proof. refine (claim_dbl_intro p_bls12 255 4 5 8 56 _ _ _ claim_rounds_bls12_4 clear_bls12_4 away_4_5 _); [split; [apply Z.leb_le|apply Z.ltb_lt]; vm_compute; reflexivity|repeat split; (apply Z.leb_le || apply Z.ltb_lt); vm_compute; reflexivity]. Qed.
Lemma claim_dbl_bls12_8 : rounds_dbl_claim p_bls12 8 5 8 57.
Proof. refine (claim_dbl_intro p_bls12 255 8 5 8 57 _ _ _ claim_rounds_bls12_8 clear_bls12_8 away_8_5 _); [split; [apply Z.leb_le|apply Z.ltb_lt]; vm_compute; reflexivity|repeat split; (apply Z.leb_le || apply Z.ltb_lt); vm_compute; reflexivity]. Qed.
Lemma claim_dbl_bn256_3 : rounds_dbl_claim p_bn256 3 5 8 56.
Proof. refine (claim_dbl_intro p_bn256 254 3 5 8 56 _ _ _ claim_rounds_bn256_3 clear_bn256_3 away_3_5 _); [split; [apply Z.leb_le|apply Z.ltb_lt]; vm_compute; reflexivity|repeat split; (apply Z.leb_le || apply Z.ltb_lt); vm_compute; reflexivity]. Qed.
Lemma claim_dbl_goldilocks_8 : rounds_dbl_claim p_goldilocks 8 7 8 22.
Proof. refine (claim_dbl_intro p_goldilocks 64 8 7 8 22 _ _ _ claim_rounds_goldilocks_8 clear_goldilocks_8 away_8_7 _); [split; [apply Z.leb_le|apply Z.ltb_lt]; vm_compute; reflexivity|repeat split; (apply Z.leb_le || apply Z.ltb_lt); vm_compute; reflexivity]. Qed.
Lemma claim_dbl_goldilocks_12 : rounds_dbl_claim p_goldilocks 12 7 8 22.
Proof. refine (claim_dbl_intro p_goldilocks 64 12 7 8 22 _ _ _ claim_rounds_goldilocks_12 clear_goldilocks_12 away_12_7 _); [split; [apply Z.leb_le|apply Z.ltb_lt]; vm_compute; reflexivity|repeat split; (apply Z.leb_le || apply Z.ltb_lt); vm_compute; reflexivity]. Qed.
Lemma claim_dbl_goldilocks_16 : rounds_dbl_claim p_goldilocks 16 7 8 22.
Proof. refine (claim_dbl_intro p_goldilocks 64 16 7 8 22 _ _ _ claim_rounds_goldilocks_16 clear_goldilocks_16 away_16_7 _); [split; [apply Z.leb_le|apply Z.ltb_lt]; vm_compute; reflexivity|repeat split; (apply Z.leb_le || apply Z.ltb_lt); vm_compute; reflexivity]. Qed.
Lemma claim_dbl_goldilocks_20 : rounds_dbl_claim p_goldilocks 20 7 8 22.
Proof. refine (claim_dbl_intro p_goldilocks 64 20 7 8 22 _ _ _ claim_rounds_goldilocks_20 clear_goldilocks_20 away_20_7 _); [split; [apply Z.leb_le|apply Z.ltb_lt]; vm_compute; reflexivity|repeat split; (apply Z.leb_le || apply Z.ltb_lt); vm_compute; reflexivity]. Qed.
Lemma claim_dbl_pallas_3 : rounds_dbl_claim p_pallas 3 5 8 56.
Proof. refine (claim_dbl_intro p_pallas 255 3 5 8 56 _ _ _ claim_rounds_pallas_3 clear_pallas_3 away_3_5 _); [split; [apply Z.leb_le|apply Z.ltb_lt]; vm_compute; reflexivity|repeat split; (apply Z.leb_le || apply Z.ltb_lt); vm_compute; reflexivity]. Qed.
Lemma claim_dbl_pallas_4 : rounds_dbl_claim p_pallas 4 5 8 56.
Proof. refine (claim_dbl_intro p_pallas 255 4 5 8 56 _ _ _ claim_rounds_pallas_4 clear_pallas_4 away_4_5 _); [split; [apply Z.leb_le|apply Z.ltb_lt]; vm_compute; reflexivity|repeat split; (apply Z.leb_le || apply Z.ltb_lt); vm_compute; reflexivity]. Qed.
Lemma claim_dbl_pallas_8 : rounds_dbl_claim p_pallas 8 5 8 57.
Proof. refine (claim_dbl_intro p_pallas 255 8 5 8 57 _ _ _ claim_rounds_pallas_8 clear_pallas_8 away_8_5 _); [split; [apply Z.leb_le|apply Z.ltb_lt]; vm_compute; reflexivity|repeat split; (apply Z.leb_le || apply Z.ltb_lt); vm_compute; reflexivity]. Qed.
Lemma claim_dbl_vesta_3 : rounds_dbl_claim p_vesta 3 5 8 56.
Proof. refine (claim_dbl_intro p_vesta 255 3 5 8 56 _ _ _ claim_rounds_vesta_3 clear_vesta_3 away_3_5 _); [split; [apply Z.leb_le|apply Z.ltb_lt]; vm_compute; reflexivity|repeat split; (apply Z.leb_le || apply Z.ltb_lt); vm_compute; reflexivity]. Qed.

Theorem p2_round_numbers_dbl I : In I p2_instances -> rounds_dbl_claim (qi_p I) (qi_t I) (qi_d I) (qi_rf I) (qi_rp I).
Proof.
  intros H. unfold p2_instances in H. cbn [In] in H.
  destruct H as [<-|H]; [exact claim_dbl_babybear_16|].
  destruct H as [<-|H]; [exact claim_dbl_babybear_24|].
  destruct H as [<-|H]; [exact claim_dbl_bls12_2|].
  destruct H as [<-|H]; [exact claim_dbl_bls12_3|].
  destruct H as [<-|H]; [exact claim_dbl_bls12_4|].
  destruct H as [<-|H]; [exact claim_dbl_bls12_8|].
  destruct H as [<-|H]; [exact claim_dbl_bn256_3|].
  destruct H as [<-|H]; [exact claim_dbl_goldilocks_8|].
  destruct H as [<-|H]; [exact claim_dbl_goldilocks_12|].
  destruct H as [<-|H]; [exact claim_dbl_goldilocks_16|].
  destruct H as [<-|H]; [exact claim_dbl_goldilocks_20|].
  destruct H as [<-|H]; [exact claim_dbl_pallas_3|].
  destruct H as [<-|H]; [exact claim_dbl_pallas_4|].
  destruct H as [<-|H]; [exact claim_dbl_pallas_8|].
  destruct H as [<-|H]; [exact claim_dbl_vesta_3|].
  destruct H.
Qed.

Theorem ps_round_numbers_dbl I : In I ps_instances -> rounds_dbl_claim (si_p I) (si_t I) (si_d I) (si_rf I) (si_rp I).
Proof.
  intros H. unfold ps_instances in H. cbn [In] in H.
  destruct H as [<-|H]; [exact claim_dbl_babybear_16|].
  destruct H as [<-|H]; [exact claim_dbl_babybear_24|].
  destruct H as [<-|H]; [exact claim_dbl_bls12_2|].
  destruct H as [<-|H]; [exact claim_dbl_bls12_3|].
  destruct H as [<-|H]; [exact claim_dbl_bls12_4|].
  destruct H as [<-|H]; [exact claim_dbl_bls12_8|].
  destruct H as [<-|H]; [exact claim_dbl_bn256_3|].
  destruct H as [<-|H]; [exact claim_dbl_goldilocks_8|].
  destruct H as [<-|H]; [exact claim_dbl_goldilocks_12|].
  destruct H as [<-|H]; [exact claim_dbl_goldilocks_16|].
  destruct H as [<-|H]; [exact claim_dbl_goldilocks_20|].
  destruct H as [<-|H]; [exact claim_dbl_pallas_3|].
  destruct H as [<-|H]; [exact claim_dbl_pallas_4|].
  destruct H as [<-|H]; [exact claim_dbl_pallas_8|].
  destruct H as [<-|H]; [exact claim_dbl_vesta_3|].
  destruct H.
Qed.

