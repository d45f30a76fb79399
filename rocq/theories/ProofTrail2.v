(** * ProofTrail2: partial rounds of the shipped instances *)
From Coq Require Import Znumtheory.
From Verif Require Import Base Field Spec SpecPoseidon SpecPoseidon2 SpecMinPoly LinAlg FieldPow Fp Primes Vec LinOp MinPolyCert Elim LoopLemmas
  ModelPoseidon2 ModelPoseidon ModelInstances ModelSubspace ModelGrain ModelGenerate SpecInstances ProofInstances ProofSubspace ProofKrylov CertCyclic ProofTrail.
From Verif Require ProofPoseidon2 ProofPoseidon ProofPoseidonFin ProofKats ProofMinPoly ProofMinPoly2 ProofGrain4.
Local Open Scope nat_scope.

Lemma p2_all_cyclic I : In I p2_instances -> qi_t I = 3 ->
  exists P Hok f L, prime (qi_p I) /\ cyclic_cert P Hok (qi_p I) (qi_t I) (qi_mat I) f L = true.
Proof.
  intros H E. unfold p2_instances in H. cbn [In] in H.
  destruct H as [<-|H]; [discriminate|].
  destruct H as [<-|H]; [discriminate|].
  destruct H as [<-|H]; [discriminate|].
  destruct H as [<-|H]; [exact (ex_intro _ P_bls12 (ex_intro _ P_bls12_ok (ex_intro _ _ (ex_intro _ _ (conj prime_bls12 cyclic_POSEIDON2_BLS_3_PARAMS)))))|].
  destruct H as [<-|H]; [discriminate|].
  destruct H as [<-|H]; [discriminate|].
  destruct H as [<-|H]; [exact (ex_intro _ P_bn256 (ex_intro _ P_bn256_ok (ex_intro _ _ (ex_intro _ _ (conj prime_bn256 cyclic_POSEIDON2_BN256_PARAMS)))))|].
  destruct H as [<-|H]; [discriminate|].
  destruct H as [<-|H]; [discriminate|].
  destruct H as [<-|H]; [discriminate|].
  destruct H as [<-|H]; [discriminate|].
  destruct H as [<-|H]; [exact (ex_intro _ P_pallas (ex_intro _ P_pallas_ok (ex_intro _ _ (ex_intro _ _ (conj prime_pallas cyclic_POSEIDON2_PALLAS_3_PARAMS)))))|].
  destruct H as [<-|H]; [discriminate|].
  destruct H as [<-|H]; [discriminate|].
  destruct H as [<-|H]; [exact (ex_intro _ P_vesta (ex_intro _ P_vesta_ok (ex_intro _ _ (ex_intro _ _ (conj prime_vesta cyclic_POSEIDON2_VESTA_PARAMS)))))|].
  destruct H.
Qed.

Lemma ps_all_cyclic I : In I ps_instances ->
  exists P Hok f L, prime (si_p I) /\ cyclic_cert P Hok (si_p I) (si_t I) (si_mds I) f L = true.
Proof.
  intros H. unfold ps_instances in H. cbn [In] in H.
  destruct H as [<-|H]; [exact (ex_intro _ P_babybear (ex_intro _ P_babybear_ok (ex_intro _ _ (ex_intro _ _ (conj prime_babybear cyclic_POSEIDON_BABYBEAR_16_PARAMS)))))|].
  destruct H as [<-|H]; [exact (ex_intro _ P_babybear (ex_intro _ P_babybear_ok (ex_intro _ _ (ex_intro _ _ (conj prime_babybear cyclic_POSEIDON_BABYBEAR_24_PARAMS)))))|].
  destruct H as [<-|H]; [exact (ex_intro _ P_bls12 (ex_intro _ P_bls12_ok (ex_intro _ _ (ex_intro _ _ (conj prime_bls12 cyclic_POSEIDON_BLS_2_PARAMS)))))|].
  destruct H as [<-|H]; [exact (ex_intro _ P_bls12 (ex_intro _ P_bls12_ok (ex_intro _ _ (ex_intro _ _ (conj prime_bls12 cyclic_POSEIDON_BLS_3_PARAMS)))))|].
  destruct H as [<-|H]; [exact (ex_intro _ P_bls12 (ex_intro _ P_bls12_ok (ex_intro _ _ (ex_intro _ _ (conj prime_bls12 cyclic_POSEIDON_BLS_4_PARAMS)))))|].
  destruct H as [<-|H]; [exact (ex_intro _ P_bls12 (ex_intro _ P_bls12_ok (ex_intro _ _ (ex_intro _ _ (conj prime_bls12 cyclic_POSEIDON_BLS_8_PARAMS)))))|].
  destruct H as [<-|H]; [exact (ex_intro _ P_bn256 (ex_intro _ P_bn256_ok (ex_intro _ _ (ex_intro _ _ (conj prime_bn256 cyclic_POSEIDON_BN_PARAMS)))))|].
  destruct H as [<-|H]; [exact (ex_intro _ P_goldilocks (ex_intro _ P_goldilocks_ok (ex_intro _ _ (ex_intro _ _ (conj prime_goldilocks cyclic_POSEIDON_GOLDILOCKS_8_PARAMS)))))|].
  destruct H as [<-|H]; [exact (ex_intro _ P_goldilocks (ex_intro _ P_goldilocks_ok (ex_intro _ _ (ex_intro _ _ (conj prime_goldilocks cyclic_POSEIDON_GOLDILOCKS_12_PARAMS)))))|].
  destruct H as [<-|H]; [exact (ex_intro _ P_goldilocks (ex_intro _ P_goldilocks_ok (ex_intro _ _ (ex_intro _ _ (conj prime_goldilocks cyclic_POSEIDON_GOLDILOCKS_16_PARAMS)))))|].
  destruct H as [<-|H]; [exact (ex_intro _ P_goldilocks (ex_intro _ P_goldilocks_ok (ex_intro _ _ (ex_intro _ _ (conj prime_goldilocks cyclic_POSEIDON_GOLDILOCKS_20_PARAMS)))))|].
  destruct H as [<-|H]; [exact (ex_intro _ P_pallas (ex_intro _ P_pallas_ok (ex_intro _ _ (ex_intro _ _ (conj prime_pallas cyclic_POSEIDON_PALLAS_3_PARAMS)))))|].
  destruct H as [<-|H]; [exact (ex_intro _ P_pallas (ex_intro _ P_pallas_ok (ex_intro _ _ (ex_intro _ _ (conj prime_pallas cyclic_POSEIDON_PALLAS_4_PARAMS)))))|].
  destruct H as [<-|H]; [exact (ex_intro _ P_pallas (ex_intro _ P_pallas_ok (ex_intro _ _ (ex_intro _ _ (conj prime_pallas cyclic_POSEIDON_PALLAS_8_PARAMS)))))|].
  destruct H as [<-|H]; [exact (ex_intro _ P_vesta (ex_intro _ P_vesta_ok (ex_intro _ _ (ex_intro _ _ (conj prime_vesta cyclic_POSEIDON_VESTA_PARAMS)))))|].
  destruct H.
Qed.

Section Pow1.
  Context {F : Type} {Fo : FOps F} (HF : is_field Fo).
  Add Ring FringP1 : (ff_ring _ HF).
  Lemma mat_pow_1 t (M : @mat F) i j : i < t -> j < t -> mat_pow t M 1 i j = M i j.
  Proof.
    intros Hi Hj. change (sumn t (fun l => fmul (M i l) (mat_id l j)) = M i j).
    etransitivity; [apply (sumn_single HF t j); [exact Hj|]|].
    - intros k Hk N. unfold mat_id. destruct (Nat.eqb_spec k j); [congruence|]. ring.
    - unfold mat_id. rewrite Nat.eqb_refl. ring.
  Qed.
  Lemma fadd_0_right (a : F) : fadd a f0 = a.
  Proof. ring. Qed.
End Pow1.
Lemma mat_pow_ext {F} {Fo : FOps F} t (A B : @mat F) k : (forall i j, i < t -> j < t -> A i j = B i j) ->
  forall i j, i < t -> j < t -> mat_pow t A k i j = mat_pow t B k i j.
Proof.
  intros E. induction k as [|k IH]; intros i j Hi Hj; [reflexivity|]. cbn [mat_pow]. unfold mat_mul.
  apply sumn_ext. intros l Hl. rewrite E, IH by assumption. reflexivity.
Qed.
Lemma left_krylov_ext {F} {Fo : FOps F} t (A B : @mat F) : 1 <= t -> (forall i j, i < t -> j < t -> A i j = B i j) ->
  left_krylov (t := t) A -> left_krylov (t := t) B.
Proof.
  intros Ht E H. apply (nonsingular_ext t (fun k j => mat_pow t A k 0 j)); [|exact H].
  intros i j Hi Hj. apply mat_pow_ext; [exact E|lia|exact Hj].
Qed.

Theorem p2_krylov I : In I p2_instances -> forall F (Fo : FOps F), is_prime_field Fo (qi_p I) ->
  krylov_ok (qi_t I) (entry (map (map (f_of_Z (F := F))) (qi_mat I))).
Proof.
  intros HI F Fo HP. destruct (Nat.eq_dec (qi_t I) 3) as [E|N].
  - destruct (p2_all_cyclic I HI E) as [P [Hok [f [L [Hpr H]]]]]. exact (cyclic_cert_ok P Hok _ _ _ f L Hpr H F Fo HP).
  - pose proof (prime_field_is_field HP) as HF. pose proof (ProofMinPoly2.p2_width_ge2 I HI) as W.
    assert (W1 : 1 <= qi_t I) by lia. pose proof (ProofMinPoly2.p2_no_small I HI N F Fo HP) as NS. split.
    + apply (left_krylov_ext (qi_t I) (mat_pow (qi_t I) (entry (map (map (f_of_Z (F := F))) (qi_mat I))) 1)); [exact W1|intros i j Hi Hj; apply (mat_pow_1 HF); assumption|].
      apply (no_small_left HF W1). apply (no_small_vec HP). apply NS. lia.
    + intros r Hr. apply (no_small_right HF W1). apply (no_small_vec HP). apply NS. exact Hr.
Qed.
Theorem ps_krylov I : In I ps_instances -> forall F (Fo : FOps F), is_prime_field Fo (si_p I) ->
  krylov_ok (si_t I) (entry (map (map (f_of_Z (F := F))) (si_mds I))).
Proof.
  intros HI F Fo HP. destruct (ps_all_cyclic I HI) as [P [Hok [f [L [Hpr H]]]]]. exact (cyclic_cert_ok P Hok _ _ _ f L Hpr H F Fo HP).
Qed.

(** ** The code's partial rounds *)
Lemma p2_partial_rounds I : In I p2_instances -> forall F (Fo : FOps F), is_prime_field Fo (qi_p I) -> forall dbg,
  exists Q s c, p2_instance_params dbg I = Ok Q /\
  forall lo k x, length x = qi_t I -> qi_rf I / 2 <= lo -> lo + k <= qi_rf I / 2 + qi_rp I ->
    for_range lo (lo + k) (p2_partial_round Q) x =
      Ok (tstate (qi_t I) (entry (map (map (f_of_Z (F := F))) (qi_mat I))) s c lo k x).
Proof.
  intros HI F Fo HP dbg. destruct (ProofKats.p2_all I HI) as [P [Hok [Hpr H]]].
  destruct (p2_cert_parts P Hok I H) as [Ep [H7 [Hb [HA [HC HE]]]]]. pose proof (prime_field_is_field HP) as HF.
  destruct (p2_new_succeeds (F := F) dbg _ _ _ _ _ (map f_of_Z (qi_diag I)) (map (map f_of_Z) (qi_mat I)) (map (map f_of_Z) (qi_rc I)) HA) as [Q HQ].
  set (rc := map (map (f_of_Z (F := F))) (qi_rc I)) in *.
  exists Q, (fun r z => fpow (fadd z (nth 0 (nth r rc []) f0)) (qi_d I)), (fun _ _ => f0).
  rewrite (p2_instance_residues dbg I HC Hb). split; [exact HQ|].
  assert (EQ : p2_t Q = qi_t I /\ p2_d Q = qi_d I /\ p2_diag Q = map f_of_Z (qi_diag I) /\ p2_rc Q = rc).
  { unfold p2_new in HQ. destruct (_ || _ || _ || _); [|discriminate]. cbn [assert bind] in HQ.
    destruct (_ =? 0); [|discriminate]. cbn [assert bind] in HQ.
    destruct (uadd dbg (qi_rf I) (qi_rp I)); [|discriminate|discriminate]. cbn [bind] in HQ. injection HQ as <-. repeat split. }
  destruct EQ as [Et [Ed [Eg Er]]]. intros lo k x Lx Hlo Hhi. unfold tstate.
  pose proof (Nat.div_mod (qi_rf I) 2 ltac:(lia)) as Hdm. pose proof (ga_width _ _ _ _ _ HA) as W.
  pose proof (ProofPoseidon2.p2_width_pos _ W) as Wp.
  assert (Hk : lo + k - lo = k) by lia. rewrite <- Hk at 2. clear Hk.
  apply (for_range_fold (tround (qi_t I) _ _ _) (fun s => length s = qi_t I)); [exact Lx|].
  intros r s Hr Ls. split; [|apply mat_apply_length].
  rewrite (ProofPoseidon2.p2_partial_round_ok HF).
  - rewrite Et, Ed, Eg, Er. f_equal. unfold p2_ref_partial, tround. apply mat_apply_ext.
    + intros i j Hi Hj. apply (p2_matrix_applied I HP W HC); assumption.
    + intros j _. f_equal. apply map_ext. intros i. destruct (i =? 0); [reflexivity|]. symmetry. apply (fadd_0_right HF).
  - rewrite Et. exact W.
  - rewrite Ed. apply HA.
  - rewrite Et. exact Ls.
  - rewrite Er. unfold rc. rewrite (map_of_Z_row _ _ _ r (pc_rc_shape I HC)); lia.
  - intros _. rewrite Eg, Et, map_length, (pc_diag_length I HC). lia.
Qed.

Lemma ps_partial_rounds_t I : In I ps_instances -> forall F (Fo : FOps F), is_prime_field Fo (si_p I) -> forall dbg,
  exists Q s c, ps_instance_params dbg I = Ok Q /\
  forall lo k x, length x = si_t I -> lo + k <= si_rf I + si_rp I ->
    for_range lo (lo + k) (ps_partial_round dbg Q) x =
      Ok (tstate (si_t I) (entry (map (map (f_of_Z (F := F))) (si_mds I))) s c lo k x).
Proof.
  intros HI F Fo HP dbg. destruct (ProofKats.ps_all I HI) as [P [Hok [Hpr H]]].
  destruct (ps_cert_parts P Hok I H) as [Ep [H7 [Hb [HA [HC HE]]]]]. pose proof (prime_field_is_field HP) as HF.
  destruct (ps_cert_ok P Hok I Hpr H (Fo := Fo) HP dbg) as [Q [HQ _]].
  set (rc := map (map (f_of_Z (F := F))) (si_rc I)) in *.
  exists Q, (fun r z => fpow (fadd z (nth 0 (nth r rc []) f0)) (si_d I)), (fun r i => nth i (nth r rc []) f0).
  split; [exact HQ|]. rewrite (ps_instance_residues dbg I HC Hb) in HQ.
  destruct (ProofPoseidon.ps_new_ok dbg _ _ _ _ _ _ Q HQ (ga_overflow _ _ _ _ _ HA)) as [Hd [Hm [He [mi [v [wh [opt [_ [_ EQ]]]]]]]]].
  assert (Et : ps_t Q = si_t I) by (rewrite EQ; reflexivity). assert (Ed : ps_d Q = si_d I) by (rewrite EQ; reflexivity).
  assert (Em : ps_mds Q = map (map f_of_Z) (si_mds I)) by (rewrite EQ; reflexivity).
  assert (Er : ps_rc Q = rc) by (rewrite EQ; reflexivity).
  pose proof (ProofPoseidon2.p2_width_pos _ (ga_width _ _ _ _ _ HA)) as Wp.
  assert (HW : ProofPoseidon.ps_wf Q).
  { split; [rewrite Ed; exact Hd|]. rewrite Et, Em. split; [|lia]. apply map_of_Z_dims, (sc_mds_shape I HC). }
  intros lo k x Lx Hhi. unfold tstate.
  destruct (ProofPoseidon.ps_partial_rounds HF dbg Q lo (lo + k) x HW) as [E _].
  { rewrite Et. exact Lx. } { lia. }
  { intros r Hr. rewrite Er, Et. unfold rc. rewrite (map_of_Z_row _ _ _ r (sc_rc_shape I HC)); lia. }
  rewrite E. replace (lo + k - lo) with k by lia. rewrite Et, Ed, Em, Er. f_equal. 
  assert (EX : forall l y, fold_left (fun s r => ps_ref_partial (si_t I) (si_d I) (entry (map (map f_of_Z) (si_mds I))) (nth r rc []) s) l y =
    fold_left (tround (si_t I) (entry (map (map (f_of_Z (F := F))) (si_mds I))) (fun r z => fpow (fadd z (nth 0 (nth r rc []) f0)) (si_d I)) (fun r i => nth i (nth r rc []) f0)) l y).
  { induction l as [|r l IH]; intros y; [reflexivity|]. cbn [fold_left]. rewrite IH. f_equal.
    unfold ps_ref_partial, tround. f_equal. apply map_ext. intros i. destruct (Nat.eqb_spec i 0) as [->|]; reflexivity. }
  apply EX.
Qed.

Section Generic.
  Context {F : Type} {Fo : FOps F} (HF : is_field Fo) {t : nat} (Ht : 1 <= t) {M : @mat F} (HL : left_krylov (t := t) M)
    {s : nat -> F -> F} {c : nat -> nat -> F} {round : nat -> list F -> res (list F)} {lo0 rp : nat}
    (HR : forall lo k x, length x = t -> lo0 <= lo -> lo + k <= lo0 + rp -> for_range lo (lo + k) round x = Ok (tstate t M s c lo k x)).
  Lemma rounds_active lo x y : lo0 <= lo -> lo + t <= lo0 + rp -> length x = t -> length y = t -> x <> y ->
    exists k u v, k < t /\ for_range lo (lo + k) round x = Ok u /\ for_range lo (lo + k) round y = Ok v /\ nth 0 u f0 <> nth 0 v f0.
  Proof.
    intros H1 H2 Lx Ly N. destruct (trail_active HF Ht (s := s) (c := c) lo x y HL Lx Ly N) as [k [Hk Nk]].
    exists k, (tstate t M s c lo k x), (tstate t M s c lo k y). split; [exact Hk|].
    split; [apply HR; (exact Lx || lia)|]. split; [apply HR; (exact Ly || lia)|exact Nk].
  Qed.
  Lemma rounds_avoid : (exists x y, length x = t /\ length y = t /\ x <> y /\ forall k, k < rp -> exists u v,
      for_range lo0 (lo0 + k) round x = Ok u /\ for_range lo0 (lo0 + k) round y = Ok v /\ nth 0 u f0 = nth 0 v f0) <-> rp < t.
  Proof.
    split.
    - intros [x [y [Lx [Ly [N H]]]]]. destruct (Nat.lt_ge_cases rp t) as [|G]; [assumption|exfalso].
      destruct (rounds_active lo0 x y) as [k [u [v [Hk [E1 [E2 Ne]]]]]]; try assumption; try lia.
      destruct (H k) as [u' [v' [E1' [E2' Eq]]]]; [lia|]. rewrite E1 in E1'. rewrite E2 in E2'.
      injection E1' as <-. injection E2' as <-. exact (Ne Eq).
    - intros Hrp. destruct (trail_exists HF Ht (M := M) (s := s) (c := c) lo0 rp Hrp) as [x [y [Lx [Ly [N H]]]]].
      exists x, y. split; [exact Lx|]. split; [exact Ly|]. split; [exact N|]. intros k Hk.
      exists (tstate t M s c lo0 k x), (tstate t M s c lo0 k y). split; [apply HR; (exact Lx || lia)|].
      split; [apply HR; (exact Ly || lia)|exact (H k Hk)].
  Qed.
End Generic.

Theorem p2_trails I : In I p2_instances -> forall F (Fo : FOps F), is_prime_field Fo (qi_p I) -> forall dbg,
  exists Q, p2_instance_params dbg I = Ok Q /\
  (forall lo x y, qi_rf I / 2 <= lo -> lo + qi_t I <= qi_rf I / 2 + qi_rp I -> length x = qi_t I -> length y = qi_t I -> x <> y ->
    exists k u v, k < qi_t I /\ for_range lo (lo + k) (p2_partial_round Q) x = Ok u /\
      for_range lo (lo + k) (p2_partial_round Q) y = Ok v /\ nth 0 u f0 <> nth 0 v f0) /\
  ((exists x y, length x = qi_t I /\ length y = qi_t I /\ x <> y /\ forall k, k < qi_rp I -> exists u v,
      for_range (qi_rf I / 2) (qi_rf I / 2 + k) (p2_partial_round Q) x = Ok u /\
      for_range (qi_rf I / 2) (qi_rf I / 2 + k) (p2_partial_round Q) y = Ok v /\ nth 0 u f0 = nth 0 v f0) <-> qi_rp I < qi_t I).
Proof.
  intros HI F Fo HP dbg. destruct (p2_partial_rounds I HI F Fo HP dbg) as [Q [s [c [HQ HR]]]]. exists Q. split; [exact HQ|].
  pose proof (ProofMinPoly2.p2_width_ge2 I HI) as W. assert (W1 : 1 <= qi_t I) by lia.
  pose proof (prime_field_is_field HP) as HF. destruct (p2_krylov I HI F Fo HP) as [HL _]. split.
  - intros lo x y. apply (rounds_active HF W1 HL HR).
  - apply (rounds_avoid HF W1 HL HR).
Qed.
Theorem ps_trails I : In I ps_instances -> forall F (Fo : FOps F), is_prime_field Fo (si_p I) -> forall dbg,
  exists Q, ps_instance_params dbg I = Ok Q /\
  (forall lo x y, si_rf I / 2 <= lo -> lo + si_t I <= si_rf I / 2 + si_rp I -> length x = si_t I -> length y = si_t I -> x <> y ->
    exists k u v, k < si_t I /\ for_range lo (lo + k) (ps_partial_round dbg Q) x = Ok u /\
      for_range lo (lo + k) (ps_partial_round dbg Q) y = Ok v /\ nth 0 u f0 <> nth 0 v f0) /\
  ((exists x y, length x = si_t I /\ length y = si_t I /\ x <> y /\ forall k, k < si_rp I -> exists u v,
      for_range (si_rf I / 2) (si_rf I / 2 + k) (ps_partial_round dbg Q) x = Ok u /\
      for_range (si_rf I / 2) (si_rf I / 2 + k) (ps_partial_round dbg Q) y = Ok v /\ nth 0 u f0 = nth 0 v f0) <-> si_rp I < si_t I).
Proof.
  intros HI F Fo HP dbg. destruct (ps_partial_rounds_t I HI F Fo HP dbg) as [Q [s [c [HQ HR]]]]. exists Q. split; [exact HQ|].
  destruct (ProofKats.ps_all I HI) as [P [Hok [Hpr H]]]. destruct (ps_cert_parts P Hok I H) as [_ [_ [_ [HA _]]]].
  pose proof (ProofPoseidon2.p2_width_pos _ (ga_width _ _ _ _ _ HA)) as W2. assert (W1 : 1 <= si_t I) by lia.
  pose proof (prime_field_is_field HP) as HF. destruct (ps_krylov I HI F Fo HP) as [HL _].
  assert (HR' : forall lo k x, length x = si_t I -> si_rf I / 2 <= lo -> lo + k <= si_rf I / 2 + si_rp I ->
    for_range lo (lo + k) (ps_partial_round dbg Q) x = Ok (tstate (si_t I) (entry (map (map (f_of_Z (F := F))) (si_mds I))) s c lo k x)).
  { intros lo k x Lx _ Hk. apply HR; [exact Lx|]. pose proof (Nat.div_mod (si_rf I) 2 ltac:(lia)). lia. }
  split.
  - intros lo x y. apply (rounds_active HF W1 HL HR').
  - apply (rounds_avoid HF W1 HL HR').
Qed.

(** ** The script's algorithms 1-3 accept the shipped matrices *)
Theorem p2_algorithms I : In I p2_instances -> forall F (Fo : FOps F), is_prime_field Fo (qi_p I) ->
  let M := entry (map (map (f_of_Z (F := F))) (qi_mat I)) in
  algorithm_1 M (qi_t I) /\ algorithm_2 M (qi_t I) /\ algorithm_3 M (qi_t I).
Proof.
  intros HI F Fo HP M. apply (krylov_ok_algorithms (prime_field_is_field HP)); [apply (ProofMinPoly2.p2_width_ge2 I HI)|].
  apply (p2_krylov I HI F Fo HP).
Qed.
Lemma ps_width_ge2 I : In I ps_instances -> 2 <= si_t I.
Proof.
  intros HI. destruct (ProofKats.ps_all I HI) as [P [Hok [Hpr H]]]. destruct (ps_cert_parts P Hok I H) as [_ [_ [_ [HA _]]]].
  pose proof (ga_width _ _ _ _ _ HA) as W. unfold p2_width in W. cbn in W. lia.
Qed.
Theorem ps_algorithms I : In I ps_instances -> forall F (Fo : FOps F), is_prime_field Fo (si_p I) ->
  let M := entry (map (map (f_of_Z (F := F))) (si_mds I)) in
  algorithm_1 M (si_t I) /\ algorithm_2 M (si_t I) /\ algorithm_3 M (si_t I).
Proof.
  intros HI F Fo HP M. apply (krylov_ok_algorithms (prime_field_is_field HP)); [apply (ps_width_ge2 I HI)|].
  apply (ps_krylov I HI F Fo HP).
Qed.

(** ** Repeated linear layers *)
Section Linear.
  Context {F : Type} {Fo : FOps F} (HF : is_field Fo) {t : nat} (Ht : 1 <= t) {M : @mat F} (HK : krylov_ok t M)
    {f : list F -> res (list F)} (Hf : forall x, length x = t -> f x = Ok (mat_apply t t M x)).
  Add Ring FringLn : (ff_ring _ HF).
  Lemma layers_observe x y : length x = t -> length y = t ->
    (forall k, k < t -> exists u v, repeatM k f x = Ok u /\ repeatM k f y = Ok v /\ nth 0 u f0 = nth 0 v f0) -> x = y.
  Proof.
    intros Lx Ly H. apply (nth_ext _ _ f0 f0); [lia|]. intros i Hi. apply (fsub_eq_0 HF).
    apply (proj1 HK (fun j => fsub (nth j x f0) (nth j y f0))); [|lia]. intros k Hk.
    destruct (H k Hk) as [u [v [E1 [E2 E]]]]. rewrite (ProofMinPoly.repeatM_matrix HF t f M Hf k x Lx) in E1.
    rewrite (ProofMinPoly.repeatM_matrix HF t f M Hf k y Ly) in E2. injection E1 as <-. injection E2 as <-.
    rewrite !mat_apply_nth in E by lia.
    transitivity (fsub (sumn t (fun j => fmul (mat_pow t M k 0 j) (nth j x f0))) (sumn t (fun j => fmul (mat_pow t M k 0 j) (nth j y f0)))).
    - rewrite <- (sumn_sub HF). apply sumn_ext. intros j Hj. ring.
    - rewrite E. ring.
  Qed.
  Lemma layers_span r y : 1 <= r <= 4 * t -> length y = t ->
    exists a u, length a = t /\ (forall k, k < t -> repeatM (r * k) f (f1 :: repeat f0 (t - 1)) = Ok (u k)) /\
      forall i, i < t -> nth i y f0 = sumn t (fun k => fmul (nth k a f0) (nth i (u k) f0)).
  Proof.
    intros Hr Ly. destruct (nonsingular_invertible HF t _ (proj2 HK r Hr)) as [B [HB _]].
    set (u := fun k => proj1_sig (iter k (mop (t := t) (mat_pow t M r)) (unit_vec 0))).
    assert (E0 : f1 :: repeat f0 (t - 1) = proj1_sig (unit_vec (t := t) 0)).
    { cbn [unit_vec mkvec proj1_sig]. destruct t as [|m]; [lia|]. cbn [seq map Nat.eqb]. f_equal. replace (S m - 1) with m by lia.
      rewrite <- seq_shift, map_map. symmetry. cbn [Nat.eqb]. etransitivity; [apply map_const_repeat|]. reflexivity. }
    exists (map (fun k => sumn t (fun j => fmul (B k j) (nth j y f0))) (seq 0 t)), u.
    split; [rewrite map_length, seq_length; reflexivity|]. split.
    - intros k Hk. rewrite (ProofMinPoly.repeatM_matrix HF t f M Hf) by (cbn [length]; rewrite repeat_length; lia).
      f_equal. rewrite E0, <- mop_list, (mop_pow HF), Nat.mul_comm, iter_mul. unfold u. f_equal. apply iter_ext. intros v. symmetry. apply (mop_pow HF).
    - intros i Hi. symmetry.
      transitivity (sumn t (fun k => sumn t (fun j => fmul (fmul (nth i (u k) f0) (B k j)) (nth j y f0)))).
      { apply sumn_ext. intros k Hk. rewrite (nth_map_d _ _ k 0) by (rewrite seq_length; exact Hk). rewrite seq_nth by exact Hk.
        rewrite <- (sumn_mul_r HF). apply sumn_ext. intros j Hj. cbn [Nat.add]. unfold vc, u. ring. }
      rewrite (sumn_swap HF). transitivity (sumn t (fun j => fmul (mat_id i j) (nth j y f0))).
      { apply sumn_ext. intros j Hj. rewrite (sumn_mul_r HF). f_equal. rewrite <- (HB i j Hi Hj). reflexivity. }
      rewrite (sumn_single HF t i); [unfold mat_id; rewrite Nat.eqb_refl; ring|exact Hi|].
      intros j Hj N. unfold mat_id. destruct (Nat.eqb_spec i j); [congruence|ring].
  Qed.
End Linear.

Theorem p2_layers I : In I p2_instances -> forall F (Fo : FOps F), is_prime_field Fo (qi_p I) -> forall dbg,
  exists Q, p2_instance_params dbg I = Ok Q /\ let layer := fun x => p2_matmul_internal Q x (p2_diag Q) in
  (forall x y, length x = qi_t I -> length y = qi_t I ->
    (forall k, k < qi_t I -> exists u v, repeatM k layer x = Ok u /\ repeatM k layer y = Ok v /\ nth 0 u f0 = nth 0 v f0) -> x = y) /\
  (forall r y, 1 <= r <= 4 * qi_t I -> length y = qi_t I -> exists a u, length a = qi_t I /\
    (forall k, k < qi_t I -> repeatM (r * k) layer (f1 :: repeat f0 (qi_t I - 1)) = Ok (u k)) /\
    forall i, i < qi_t I -> nth i y f0 = sumn (qi_t I) (fun k => fmul (nth k a f0) (nth i (u k) f0))).
Proof.
  intros HI F Fo HP dbg. destruct (ProofMinPoly2.p2_internal_layer I HI F Fo HP dbg) as [Q [HQ [_ HL]]]. exists Q. split; [exact HQ|].
  pose proof (ProofMinPoly2.p2_width_ge2 I HI) as W. assert (W1 : 1 <= qi_t I) by lia.
  pose proof (prime_field_is_field HP) as HF. pose proof (p2_krylov I HI F Fo HP) as HK. split.
  - intros x y. apply (layers_observe HF W1 HK HL).
  - intros r y. apply (layers_span HF W1 HK HL).
Qed.
Theorem ps_layers I : In I ps_instances -> forall F (Fo : FOps F), is_prime_field Fo (si_p I) -> forall dbg,
  exists Q, ps_instance_params dbg I = Ok Q /\ let layer := fun x => ps_matmul dbg x (ps_mds Q) in
  (forall x y, length x = si_t I -> length y = si_t I ->
    (forall k, k < si_t I -> exists u v, repeatM k layer x = Ok u /\ repeatM k layer y = Ok v /\ nth 0 u f0 = nth 0 v f0) -> x = y) /\
  (forall r y, 1 <= r <= 4 * si_t I -> length y = si_t I -> exists a u, length a = si_t I /\
    (forall k, k < si_t I -> repeatM (r * k) layer (f1 :: repeat f0 (si_t I - 1)) = Ok (u k)) /\
    forall i, i < si_t I -> nth i y f0 = sumn (si_t I) (fun k => fmul (nth k a f0) (nth i (u k) f0))).
Proof.
  intros HI F Fo HP dbg. pose proof (prime_field_is_field HP) as HF.
  destruct (ProofKats.ps_all I HI) as [P [Hok [Hpr H]]]. destruct (ps_cert_parts P Hok I H) as [Ep [H7 [Hb [HA [HC HE]]]]].
  destruct (ps_cert_ok P Hok I Hpr H (Fo := Fo) HP dbg) as [Q [HQ _]]. exists Q. split; [exact HQ|].
  rewrite (ps_instance_residues dbg I HC Hb) in HQ.
  destruct (ProofPoseidon.ps_new_ok dbg _ _ _ _ _ _ Q HQ (ga_overflow _ _ _ _ _ HA)) as [Hd [Hm [He [mi [v [wh [opt [_ [_ EQ]]]]]]]]].
  assert (Em : ps_mds Q = map (map f_of_Z) (si_mds I)) by (rewrite EQ; reflexivity). rewrite Em.
  pose proof (ps_width_ge2 I HI) as W. assert (W1 : 1 <= si_t I) by lia. pose proof (ps_krylov I HI F Fo HP) as HK.
  assert (HL : forall x, length x = si_t I -> ps_matmul dbg x (map (map f_of_Z) (si_mds I)) = Ok (mat_apply (si_t I) (si_t I) (entry (map (map (f_of_Z (F := F))) (si_mds I))) x)).
  { intros x Lx. apply (ProofPoseidon.ps_matmul_sq HF); [apply map_of_Z_dims, (sc_mds_shape I HC)|exact Lx]. }
  split.
  - intros x y. apply (layers_observe HF W1 HK HL).
  - intros r y. apply (layers_span HF W1 HK HL).
Qed.

(** ** generate_matrix produces the shipped MDS matrix *)
Lemma generate_matrix_accepts {F} {Fo : FOps F} fuel n t s (M : list (list F)) s1 :
  create_mds_p fuel fuel n t s = Ok (M, s1) -> algorithm_1 (entry M) t /\ algorithm_2 (entry M) t /\ algorithm_3 (entry M) t ->
  forall M' s', generate_matrix fuel n t s M' s' <-> M' = M /\ s' = s1.
Proof.
  intros H HA M' s'. split.
  - intros G. inversion G as [s0 M0 s2 E A|s0 M0 s2 M2 s3 E A R]; subst; rewrite H in E; injection E as <- <-; [split; reflexivity|contradiction].
  - intros [-> ->]. apply matrix_accept; assumption.
Qed.
Theorem ps_generate_matrix I : In I ps_instances -> forall n, (2 ^ (Z.of_nat n - 1) <= si_p I < 2 ^ Z.of_nat n)%Z ->
  exists s,
    (exists n0, forall fuel, n0 <= fuel ->
       generate_constants_poseidon fuel n (si_t I) (si_rf I) (si_rp I) (si_p I) (grain_start 1 1 n (si_t I) (si_rf I) (si_rp I)) =
       Ok (concat (si_rc I), s)) /\
    (forall F (Fo : FOps F), is_prime_field Fo (si_p I) -> exists s1 n0, forall fuel, n0 <= fuel -> forall M' s',
       generate_matrix (F := F) fuel n (si_t I) s M' s' <-> M' = map (map f_of_Z) (si_mds I) /\ s' = s1).
Proof.
  intros HI n Hn. destruct (ProofGrain4.ps_from_grain I HI n Hn) as [s [H1 H2]]. exists s. split; [exact H1|].
  intros F Fo HP. destruct (H2 F Fo HP) as [s1 [n0 H3]]. exists s1, n0. intros fuel Hf.
  apply generate_matrix_accepts; [exact (H3 fuel Hf)|]. exact (ps_algorithms I HI F Fo HP).
Qed.
