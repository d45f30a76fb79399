(** * ProofMinPoly2: the statements for all shipped Poseidon2 instances *)
From Coq Require Import Znumtheory.
From Verif Require Import Base Field Spec SpecPoseidon SpecMinPoly LinAlg FieldPow Fp Primes LinOp Vec MinPolyCert PolyDiv
  ModelPoseidon2 SpecPoseidon2 ModelInstances SpecInstances ModelSubspace ProofInstances ProofMinPoly CertP2 CertMinPoly.
From Verif Require ProofPoseidon2 ProofKats.
Local Open Scope nat_scope.

Lemma p2_all_mp I : In I p2_instances -> qi_t I <> 3 ->
  exists P Hok f L qs, prime (qi_p I) /\ p2_cert P Hok I = true /\ mp_cert P Hok I f L qs = true.
Proof.
  intros H N. unfold p2_instances in H. cbn [In] in H.
  destruct H as [<-|H]; [exact (ex_intro _ P_babybear (ex_intro _ P_babybear_ok (ex_intro _ _ (ex_intro _ _ (ex_intro _ _ (conj prime_babybear (conj cert_POSEIDON2_BABYBEAR_16_PARAMS minpoly_POSEIDON2_BABYBEAR_16_PARAMS)))))))|].
  destruct H as [<-|H]; [exact (ex_intro _ P_babybear (ex_intro _ P_babybear_ok (ex_intro _ _ (ex_intro _ _ (ex_intro _ _ (conj prime_babybear (conj cert_POSEIDON2_BABYBEAR_24_PARAMS minpoly_POSEIDON2_BABYBEAR_24_PARAMS)))))))|].
  destruct H as [<-|H]; [exact (ex_intro _ P_bls12 (ex_intro _ P_bls12_ok (ex_intro _ _ (ex_intro _ _ (ex_intro _ _ (conj prime_bls12 (conj cert_POSEIDON2_BLS_2_PARAMS minpoly_POSEIDON2_BLS_2_PARAMS)))))))|].
  destruct H as [<-|H]; [exfalso; apply N; reflexivity|].
  destruct H as [<-|H]; [exact (ex_intro _ P_bls12 (ex_intro _ P_bls12_ok (ex_intro _ _ (ex_intro _ _ (ex_intro _ _ (conj prime_bls12 (conj cert_POSEIDON2_BLS_4_PARAMS minpoly_POSEIDON2_BLS_4_PARAMS)))))))|].
  destruct H as [<-|H]; [exact (ex_intro _ P_bls12 (ex_intro _ P_bls12_ok (ex_intro _ _ (ex_intro _ _ (ex_intro _ _ (conj prime_bls12 (conj cert_POSEIDON2_BLS_8_PARAMS minpoly_POSEIDON2_BLS_8_PARAMS)))))))|].
  destruct H as [<-|H]; [exfalso; apply N; reflexivity|].
  destruct H as [<-|H]; [exact (ex_intro _ P_goldilocks (ex_intro _ P_goldilocks_ok (ex_intro _ _ (ex_intro _ _ (ex_intro _ _ (conj prime_goldilocks (conj cert_POSEIDON2_GOLDILOCKS_8_PARAMS minpoly_POSEIDON2_GOLDILOCKS_8_PARAMS)))))))|].
  destruct H as [<-|H]; [exact (ex_intro _ P_goldilocks (ex_intro _ P_goldilocks_ok (ex_intro _ _ (ex_intro _ _ (ex_intro _ _ (conj prime_goldilocks (conj cert_POSEIDON2_GOLDILOCKS_12_PARAMS minpoly_POSEIDON2_GOLDILOCKS_12_PARAMS)))))))|].
  destruct H as [<-|H]; [exact (ex_intro _ P_goldilocks (ex_intro _ P_goldilocks_ok (ex_intro _ _ (ex_intro _ _ (ex_intro _ _ (conj prime_goldilocks (conj cert_POSEIDON2_GOLDILOCKS_16_PARAMS minpoly_POSEIDON2_GOLDILOCKS_16_PARAMS)))))))|].
  destruct H as [<-|H]; [exact (ex_intro _ P_goldilocks (ex_intro _ P_goldilocks_ok (ex_intro _ _ (ex_intro _ _ (ex_intro _ _ (conj prime_goldilocks (conj cert_POSEIDON2_GOLDILOCKS_20_PARAMS minpoly_POSEIDON2_GOLDILOCKS_20_PARAMS)))))))|].
  destruct H as [<-|H]; [exfalso; apply N; reflexivity|].
  destruct H as [<-|H]; [exact (ex_intro _ P_pallas (ex_intro _ P_pallas_ok (ex_intro _ _ (ex_intro _ _ (ex_intro _ _ (conj prime_pallas (conj cert_POSEIDON2_PALLAS_4_PARAMS minpoly_POSEIDON2_PALLAS_4_PARAMS)))))))|].
  destruct H as [<-|H]; [exact (ex_intro _ P_pallas (ex_intro _ P_pallas_ok (ex_intro _ _ (ex_intro _ _ (ex_intro _ _ (conj prime_pallas (conj cert_POSEIDON2_PALLAS_8_PARAMS minpoly_POSEIDON2_PALLAS_8_PARAMS)))))))|].
  destruct H as [<-|H]; [exfalso; apply N; reflexivity|].
  destruct H.
Qed.

Lemma p2_no_small I : In I p2_instances -> qi_t I <> 3 ->
  forall F (Fo : FOps F), is_prime_field Fo (qi_p I) -> forall i, 1 <= i <= 4 * qi_t I ->
  no_small (qi_t I) (mat_pow (qi_t I) (entry (map (map (f_of_Z (F := F))) (qi_mat I))) i).
Proof.
  intros HI N. destruct (p2_all_mp I HI N) as [P [Hok [f [L [qs [Hpr [H HM]]]]]]]. exact (mp_no_small P Hok I f L qs Hpr H HM).
Qed.

Lemma p2_width_ge2 I : In I p2_instances -> 2 <= qi_t I.
Proof.
  intros HI. destruct (ProofKats.p2_shipped_consistent I HI) as [_ [HA _]]. pose proof (ga_width _ _ _ _ _ HA) as W.
  unfold p2_width in W. cbn in W. lia.
Qed.

Theorem p2_minimal_polynomials I : In I p2_instances -> qi_t I <> 3 ->
  forall F (Fo : FOps F), is_prime_field Fo (qi_p I) ->
  let M := entry (map (map (f_of_Z (F := F))) (qi_mat I)) in
  check_minpoly_condition (qi_t I) M /\
  forall i, 1 <= i <= 4 * qi_t I ->
    exists g, is_minimal_polynomial (qi_t I) (mat_pow (qi_t I) M i) g /\ length g = qi_t I /\ is_irreducible g.
Proof.
  intros HI N F Fo HP M. pose proof (p2_width_ge2 I HI) as W.
  assert (A : forall i, 1 <= i <= 4 * qi_t I ->
    exists g, is_minimal_polynomial (qi_t I) (mat_pow (qi_t I) M i) g /\ length g = qi_t I /\ is_irreducible g).
  { intros i Hi. apply (minimal_exists (prime_field_is_field HP)); [lia|].
    apply (no_small_vec HP). apply p2_no_small; assumption. }
  split; [|exact A]. apply (check_minpoly_iff (prime_field_is_field HP)). intros i Hi. apply A. lia.
Qed.

(** the code's internal layer multiplies by the shipped matrix *)
Lemma p2_internal_layer I : In I p2_instances -> forall F (Fo : FOps F), is_prime_field Fo (qi_p I) -> forall dbg,
  exists Q, p2_instance_params dbg I = Ok Q /\ p2_t Q = qi_t I /\
  forall x, length x = qi_t I ->
    p2_matmul_internal Q x (p2_diag Q) = Ok (mat_apply (qi_t I) (qi_t I) (entry (map (map (f_of_Z (F := F))) (qi_mat I))) x).
Proof.
  intros HI F Fo HP dbg. destruct (ProofKats.p2_all I HI) as [P [Hok [Hpr H]]].
  destruct (p2_cert_parts P Hok I H) as [Ep [H7 [Hb [HA [HC HE]]]]]. pose proof (prime_field_is_field HP) as HF.
  destruct (p2_new_succeeds (F := F) dbg _ _ _ _ _ (map f_of_Z (qi_diag I)) (map (map f_of_Z) (qi_mat I)) (map (map f_of_Z) (qi_rc I)) HA) as [Q HQ].
  exists Q. rewrite (p2_instance_residues dbg I HC Hb). split; [exact HQ|].
  assert (EQ : p2_t Q = qi_t I /\ p2_diag Q = map f_of_Z (qi_diag I)).
  { unfold p2_new in HQ. destruct (_ || _ || _ || _); [|discriminate]. cbn [assert bind] in HQ.
    destruct (_ =? 0); [|discriminate]. cbn [assert bind] in HQ.
    destruct (uadd dbg (qi_rf I) (qi_rp I)); [|discriminate|discriminate]. cbn [bind] in HQ. injection HQ as <-. split; reflexivity. }
  destruct EQ as [Et Ed]. split; [exact Et|]. intros x Hx. rewrite (ProofPoseidon2.p2_matmul_internal_ok HF).
  - rewrite Et, Ed. f_equal. apply mat_apply_ext; [|reflexivity].
    intros i j Hi Hj. apply (p2_matrix_applied I HP (ga_width _ _ _ _ _ HA) HC); assumption.
  - rewrite Et. apply (ga_width _ _ _ _ _ HA).
  - lia.
  - intros _. rewrite Ed, Et, map_length, (pc_diag_length I HC). lia.
Qed.

Theorem p2_no_invariant_subspace I : In I p2_instances -> qi_t I <> 3 ->
  forall F (Fo : FOps F), is_prime_field Fo (qi_p I) -> forall dbg,
  exists Q, p2_instance_params dbg I = Ok Q /\
  forall i, 1 <= i <= 4 * qi_t I ->
  forall S : list F -> Prop, is_subspace (qi_t I) S ->
    (forall v w, S v -> repeatM i (fun x => p2_matmul_internal Q x (p2_diag Q)) v = Ok w -> S w) ->
    (exists v, S v /\ v <> repeat f0 (qi_t I)) ->
    forall v, length v = qi_t I -> S v.
Proof.
  intros HI N F Fo HP dbg. pose proof (p2_width_ge2 I HI) as W. pose proof (prime_field_is_field HP) as HF.
  destruct (p2_internal_layer I HI F Fo HP dbg) as [Q [HQ [_ HL]]]. exists Q. split; [exact HQ|].
  assert (W1 : 1 <= qi_t I) by lia. intros i Hi S HS HI2 HN. apply (invariant_is_everything HF W1
    (A := mat_pow (qi_t I) (entry (map (map (f_of_Z (F := F))) (qi_mat I))) i)); try assumption.
  - apply (no_small_vec HP). apply p2_no_small; assumption.
  - intros v Hv. apply (HI2 v _ Hv). apply (repeatM_matrix HF (qi_t I) _ _ HL). apply (proj1 HS), Hv.
Qed.

(** ** Width 3 *)
Section Width3.
  Context {F : Type} {Fo : FOps F} (HF : is_field Fo).
  Add Ring FringW3 : (ff_ring _ HF).

  Lemma check_no_small t (A : @mat F) : 1 <= t -> check_minpoly_condition t A ->
    forall h (w : vec F t), length h < t -> w <> vz -> LinOp.act (vz := vz) (vadd := vadd) (vsc := vsc) (A := mop A) (h ++ [f1]) w <> vz.
  Proof.
    intros Ht HC. apply (check_minpoly_iff HF) with (i := 1) in HC; [|lia]. destruct HC as [g [[Hk _] [Lg Hirr]]].
    apply (irreducible_no_small HF A g Lg Hirr). apply (annihilates_act HF).
    apply (annihilates_ext t (mat_pow t A 1)); [|exact Hk].
    intros i j Hi Hj. cbn [mat_pow]. apply (mat_mul_id_r HF). exact Hj.
  Qed.

  Lemma zero_terms a : f1 = fadd (fadd f0 (fmul a f0)) f1.
  Proof. ring. Qed.
  Lemma product_list (a b g : list F) : pmull a b = g -> forall k, product_coefficient a b k = nth k g f0.
  Proof. intros <- k. symmetry. apply (pmull_nth HF). Qed.
  Lemma w3_comb a b x y :
    map (fun i => fadd (fmul a (nth i [x; fsub f0 x; f0] f0)) (fmul b (nth i [y; fsub f0 y; f0] f0))) (seq 0 3) =
    [fadd (fmul a x) (fmul b y); fsub f0 (fadd (fmul a x) (fmul b y)); f0].
  Proof. cbn. f_equal. f_equal; [ring|]. f_equal. ring. Qed.
  Lemma w3_fix (Q : Poseidon2Params F) : p2_t Q = 3 -> forall a, p2_matmul_internal Q [a; fsub f0 a; f0] (p2_diag Q) = Ok [a; fsub f0 a; f0].
  Proof.
    intros Et a. unfold p2_matmul_internal. rewrite Et. cbn. unfold fdouble. f_equal. f_equal; [ring|]. f_equal; [ring|]. f_equal. ring.
  Qed.
  Lemma w3_no_check (A : @mat F) : mat_apply 3 3 A [f1; fsub f0 f1; f0] = [f1; fsub f0 f1; f0] -> ~ check_minpoly_condition 3 A.
  Proof.
    intros EA HC. set (w := exist _ [f1; fsub f0 f1; f0] eq_refl : vec F 3).
    assert (H1 : 1 <= 3) by lia.
    apply (check_no_small 3 A H1 HC [fsub f0 f1] w).
    - cbn. lia.
    - intros E. apply (f_equal (fun v => vc v 0)) in E. cbn in E. apply (ff_one_neq_zero _ HF). exact E.
    - cbn [app LinOp.act]. apply vec_ext. intros i Hi.
      rewrite (lin_z HF (vec_module HF) (mop_linear HF A)), (vadd_0_r HF (vec_module HF)), (vm_sc1 _ _ _ _ (vec_module HF)).
      assert (Ew : mop A w = w) by (apply vec_eq; exact EA).
      rewrite Ew. unfold vadd, vsc, vz. rewrite !vc_mk by exact Hi. ring.
  Qed.
End Width3.

Theorem p2_width3_invariant I : In I p2_instances -> qi_t I = 3 ->
  forall F (Fo : FOps F), is_prime_field Fo (qi_p I) -> forall dbg,
  exists Q, p2_instance_params dbg I = Ok Q /\
  (forall a, p2_matmul_internal Q [a; fsub f0 a; f0] (p2_diag Q) = Ok [a; fsub f0 a; f0]) /\
  ~ check_minpoly_condition (qi_t I) (entry (map (map (f_of_Z (F := F))) (qi_mat I))).
Proof.
  intros HI E3 F Fo HP dbg. pose proof (prime_field_is_field HP) as HF.
  destruct (p2_internal_layer I HI F Fo HP dbg) as [Q [HQ [Et HL]]]. exists Q. split; [exact HQ|].
  rewrite E3 in Et, HL. pose proof (w3_fix HF Q Et) as Fix. split; [exact Fix|]. rewrite E3. apply (w3_no_check HF).
  specialize (HL [f1; fsub f0 f1; f0] eq_refl). rewrite Fix in HL. injection HL as E1 E2 E4. cbn [mat_apply seq map]. symmetry. f_equal; [exact E1|]. f_equal; [exact E2|]. f_equal. exact E4.
Qed.

Theorem p2_width3_refuted I : In I p2_instances -> qi_t I = 3 ->
  forall F (Fo : FOps F), is_prime_field Fo (qi_p I) -> forall dbg,
  exists Q, p2_instance_params dbg I = Ok Q /\
  (exists S : list F -> Prop, is_subspace (qi_t I) S /\
    (forall v, S v -> p2_matmul_internal Q v (p2_diag Q) = Ok v) /\
    (exists v, S v /\ v <> repeat f0 (qi_t I)) /\ (exists v, length v = qi_t I /\ ~ S v)) /\
  ~ check_minpoly_condition (qi_t I) (entry (map (map (f_of_Z (F := F))) (qi_mat I))).
Proof.
  intros HI E3 F Fo HP dbg. pose proof (prime_field_is_field HP) as HF.
  destruct (p2_width3_invariant I HI E3 F Fo HP dbg) as [Q [HQ [Fix NC]]]. exists Q. split; [exact HQ|]. split; [|exact NC].
  rewrite E3. exists (fun v => exists a, v = [a; fsub f0 a; f0]).
  split; [|split; [|split]].
  - split; [intros v [a ->]; reflexivity|]. intros v w a b [x ->] [y ->].
    exists (fadd (fmul a x) (fmul b y)). apply (w3_comb HF).
  - intros v [a ->]. apply Fix.
  - exists [f1; fsub f0 f1; f0]. split; [exists f1; reflexivity|]. cbn. intros E. injection E as E1 _.
    apply (ff_one_neq_zero _ HF). exact E1.
  - exists [f0; f0; f1]. split; [reflexivity|]. intros [a E]. injection E as _ _ E1. apply (ff_one_neq_zero _ HF). exact E1.
Qed.
