(** * ProofScript2: round numbers of all shipped Poseidon2 and Poseidon instances (C53) *)
From Coq Require Import Reals ZArith.
From Verif Require Import Base Field ModelFields ModelInstances SpecRounds ModelScript ProofScript CertScript.
Local Open Scope nat_scope.

Definition bits (n : nat) (p : Z) : Prop := (2 ^ (Z.of_nat n - 1) <= p < 2 ^ Z.of_nat n)%Z.

Definition rounds_claim (p : Z) (t d rf rp : nat) : Prop := forall n, bits n p ->
  (exists sat, decides sat p (Z.of_nat n) (Z.of_nat t) (Z.of_nat d) 128) /\
  (forall sat, decides sat p (Z.of_nat n) (Z.of_nat t) (Z.of_nat d) 128 ->
     find_FD_round_numbers sat (Z.of_nat t) true = (Z.of_nat rf, Z.of_nat rp)) /\
  (exists a b, sat_inequiv_alpha p (Z.of_nat n) (Z.of_nat t) a b (Z.of_nat d) 128 /\
     Z.of_nat rf = (a + 2)%Z /\ is_ceil (1075 / 1000 * IZR b)%R (Z.of_nat rp)).

Lemma bits_fun n m p : bits n p -> bits m p -> n = m.
Proof.
  intros [A B] [A' B'].
  assert (forall x y, x < y -> bits x p -> bits y p -> False).
  { intros x y L [X1 X2] [Y1 Y2]. assert (2 ^ Z.of_nat x <= 2 ^ (Z.of_nat y - 1))%Z by (apply Z.pow_le_mono_r; lia). lia. }
  destruct (Nat.lt_trichotomy n m) as [L|[L|L]]; [exfalso; apply (H n m); [exact L|split; assumption..]|exact L|exfalso; apply (H m n); [exact L|split; assumption..]].
Qed.

Lemma claim_intro p n t d rf rp T rf0 rp0 K : bits n p ->
  search_b (Z.of_nat t) (Z.of_nat d) 128 T K (Z.of_nat rf) (Z.of_nat rp) = true ->
  rounds_b p (Z.of_nat n) (Z.of_nat t) (Z.of_nat d) 128 (Z.of_nat rf) (Z.of_nat rp) T rf0 rp0 = true -> rounds_claim p t d rf rp.
Proof. intros Hn H1 H2 m Hm. rewrite (bits_fun _ _ _ Hm Hn). exact (rounds_ok _ _ _ _ _ _ _ _ _ _ _ H1 H2). Qed.

Lemma claim_rounds_babybear_16 : rounds_claim p_babybear 16 7 8 13.
Proof. refine (claim_intro p_babybear 31 16 7 8 13 _ _ _ _ _ search_babybear_16 rounds_babybear_16). split; [apply Z.leb_le|apply Z.ltb_lt]; vm_compute; reflexivity. Qed.
Lemma claim_rounds_babybear_24 : rounds_claim p_babybear 24 7 8 21.
Proof. refine (claim_intro p_babybear 31 24 7 8 21 _ _ _ _ _ search_babybear_24 rounds_babybear_24). split; [apply Z.leb_le|apply Z.ltb_lt]; vm_compute; reflexivity. Qed.
Lemma claim_rounds_bls12_2 : rounds_claim p_bls12 2 5 8 56.
Proof. refine (claim_intro p_bls12 255 2 5 8 56 _ _ _ _ _ search_bls12_2 rounds_bls12_2). split; [apply Z.leb_le|apply Z.ltb_lt]; vm_compute; reflexivity. Qed.
Lemma claim_rounds_bls12_3 : rounds_claim p_bls12 3 5 8 56.
Proof. refine (claim_intro p_bls12 255 3 5 8 56 _ _ _ _ _ search_bls12_3 rounds_bls12_3). split; [apply Z.leb_le|apply Z.ltb_lt]; vm_compute; reflexivity. Qed.
Lemma claim_rounds_bls12_4 : rounds_claim p_bls12 4 5 8 56.
Proof. refine (claim_intro p_bls12 255 4 5 8 56 _ _ _ _ _ search_bls12_4 rounds_bls12_4). split; [apply Z.leb_le|apply Z.ltb_lt]; vm_compute; reflexivity. Qed.
Lemma claim_rounds_bls12_8 : rounds_claim p_bls12 8 5 8 57.
Proof. refine (claim_intro p_bls12 255 8 5 8 57 _ _ _ _ _ search_bls12_8 rounds_bls12_8). split; [apply Z.leb_le|apply Z.ltb_lt]; vm_compute; reflexivity. Qed.
Lemma claim_rounds_bn256_3 : rounds_claim p_bn256 3 5 8 56.
Proof. refine (claim_intro p_bn256 254 3 5 8 56 _ _ _ _ _ search_bls12_3 rounds_bn256_3). split; [apply Z.leb_le|apply Z.ltb_lt]; vm_compute; reflexivity. Qed.
Lemma claim_rounds_goldilocks_8 : rounds_claim p_goldilocks 8 7 8 22.
Proof. refine (claim_intro p_goldilocks 64 8 7 8 22 _ _ _ _ _ search_goldilocks_8 rounds_goldilocks_8). split; [apply Z.leb_le|apply Z.ltb_lt]; vm_compute; reflexivity. Qed.
Lemma claim_rounds_goldilocks_12 : rounds_claim p_goldilocks 12 7 8 22.
Proof. refine (claim_intro p_goldilocks 64 12 7 8 22 _ _ _ _ _ search_goldilocks_12 rounds_goldilocks_12). split; [apply Z.leb_le|apply Z.ltb_lt]; vm_compute; reflexivity. Qed.
Lemma claim_rounds_goldilocks_16 : rounds_claim p_goldilocks 16 7 8 22.
Proof. refine (claim_intro p_goldilocks 64 16 7 8 22 _ _ _ _ _ search_goldilocks_16 rounds_goldilocks_16). split; [apply Z.leb_le|apply Z.ltb_lt]; vm_compute; reflexivity. Qed.
Lemma claim_rounds_goldilocks_20 : rounds_claim p_goldilocks 20 7 8 22.
Proof. refine (claim_intro p_goldilocks 64 20 7 8 22 _ _ _ _ _ search_goldilocks_20 rounds_goldilocks_20). split; [apply Z.leb_le|apply Z.ltb_lt]; vm_compute; reflexivity. Qed.
Lemma claim_rounds_pallas_3 : rounds_claim p_pallas 3 5 8 56.
Proof. refine (claim_intro p_pallas 255 3 5 8 56 _ _ _ _ _ search_bls12_3 rounds_pallas_3). split; [apply Z.leb_le|apply Z.ltb_lt]; vm_compute; reflexivity. Qed.
Lemma claim_rounds_pallas_4 : rounds_claim p_pallas 4 5 8 56.
Proof. refine (claim_intro p_pallas 255 4 5 8 56 _ _ _ _ _ search_bls12_4 rounds_pallas_4). split; [apply Z.leb_le|apply Z.ltb_lt]; vm_compute; reflexivity. Qed.
Lemma claim_rounds_pallas_8 : rounds_claim p_pallas 8 5 8 57.
Proof. refine (claim_intro p_pallas 255 8 5 8 57 _ _ _ _ _ search_bls12_8 rounds_pallas_8). split; [apply Z.leb_le|apply Z.ltb_lt]; vm_compute; reflexivity. Qed.
Lemma claim_rounds_vesta_3 : rounds_claim p_vesta 3 5 8 56.
Proof. refine (claim_intro p_vesta 255 3 5 8 56 _ _ _ _ _ search_bls12_3 rounds_vesta_3). split; [apply Z.leb_le|apply Z.ltb_lt]; vm_compute; reflexivity. Qed.

Theorem p2_round_numbers I : In I p2_instances -> rounds_claim (qi_p I) (qi_t I) (qi_d I) (qi_rf I) (qi_rp I).
Proof.
  intros H. unfold p2_instances in H. cbn [In] in H.
  destruct H as [<-|H]; [exact claim_rounds_babybear_16|].
  destruct H as [<-|H]; [exact claim_rounds_babybear_24|].
  destruct H as [<-|H]; [exact claim_rounds_bls12_2|].
  destruct H as [<-|H]; [exact claim_rounds_bls12_3|].
  destruct H as [<-|H]; [exact claim_rounds_bls12_4|].
  destruct H as [<-|H]; [exact claim_rounds_bls12_8|].
  destruct H as [<-|H]; [exact claim_rounds_bn256_3|].
  destruct H as [<-|H]; [exact claim_rounds_goldilocks_8|].
  destruct H as [<-|H]; [exact claim_rounds_goldilocks_12|].
  destruct H as [<-|H]; [exact claim_rounds_goldilocks_16|].
  destruct H as [<-|H]; [exact claim_rounds_goldilocks_20|].
  destruct H as [<-|H]; [exact claim_rounds_pallas_3|].
  destruct H as [<-|H]; [exact claim_rounds_pallas_4|].
  destruct H as [<-|H]; [exact claim_rounds_pallas_8|].
  destruct H as [<-|H]; [exact claim_rounds_vesta_3|].
  destruct H.
Qed.

Theorem ps_round_numbers I : In I ps_instances -> rounds_claim (si_p I) (si_t I) (si_d I) (si_rf I) (si_rp I).
Proof.
  intros H. unfold ps_instances in H. cbn [In] in H.
  destruct H as [<-|H]; [exact claim_rounds_babybear_16|].
  destruct H as [<-|H]; [exact claim_rounds_babybear_24|].
  destruct H as [<-|H]; [exact claim_rounds_bls12_2|].
  destruct H as [<-|H]; [exact claim_rounds_bls12_3|].
  destruct H as [<-|H]; [exact claim_rounds_bls12_4|].
  destruct H as [<-|H]; [exact claim_rounds_bls12_8|].
  destruct H as [<-|H]; [exact claim_rounds_bn256_3|].
  destruct H as [<-|H]; [exact claim_rounds_goldilocks_8|].
  destruct H as [<-|H]; [exact claim_rounds_goldilocks_12|].
  destruct H as [<-|H]; [exact claim_rounds_goldilocks_16|].
  destruct H as [<-|H]; [exact claim_rounds_goldilocks_20|].
  destruct H as [<-|H]; [exact claim_rounds_pallas_3|].
  destruct H as [<-|H]; [exact claim_rounds_pallas_4|].
  destruct H as [<-|H]; [exact claim_rounds_pallas_8|].
  destruct H as [<-|H]; [exact claim_rounds_vesta_3|].
  destruct H.
Qed.
