(** * ProofMinPoly: the shipped internal matrices have no invariant subspaces *)
From Coq Require Import Uint63 Znumtheory.
From Verif Require Import Base Field Spec SpecPoseidon SpecMinPoly LinAlg FieldPow Fp LinOp PolyMod Vec Transfer Elim MinPolyCert
  ModelPoseidon2 SpecPoseidon2 ModelInstances SpecInstances ModelSubspace ProofInstances.
From Verif Require ProofPoseidon2.
Local Open Scope nat_scope.

Section Generic.
  Context {F : Type} {Fo : FOps F} (HF : is_field Fo).
  Add Ring FringPMP : (ff_ring _ HF).

  Lemma mat_pow_ext t (A B : mat) k : (forall i j, i < t -> j < t -> A i j = B i j) ->
    forall i j, i < t -> j < t -> mat_pow t A k i j = mat_pow t B k i j.
  Proof.
    intros E. induction k as [|k IH]; intros i j Hi Hj; cbn [mat_pow]; [reflexivity|].
    unfold mat_mul. apply sumn_ext. intros l Hl. rewrite E, IH by assumption. reflexivity.
  Qed.
  Lemma mat_poly_ext t (A B : mat) g : (forall i j, i < t -> j < t -> A i j = B i j) ->
    forall i j, i < t -> j < t -> mat_poly t g A i j = mat_poly t g B i j.
  Proof.
    intros E i j Hi Hj. unfold mat_poly. apply sumn_ext. intros k Hk. f_equal. apply mat_pow_ext; assumption.
  Qed.
  Lemma annihilates_ext t (A B : mat) g : (forall i j, i < t -> j < t -> A i j = B i j) -> annihilates t g A -> annihilates t g B.
  Proof. intros E H i j Hi Hj. rewrite <- (H i j Hi Hj). symmetry. apply mat_poly_ext; assumption. Qed.
  Lemma is_minimal_ext t (A B : mat) g : (forall i j, i < t -> j < t -> A i j = B i j) ->
    is_minimal_polynomial t A g -> is_minimal_polynomial t B g.
  Proof.
    intros E [H1 H2]. split; [apply (annihilates_ext t A B); assumption|]. intros h Hh Hk. apply (H2 h Hh).
    apply (annihilates_ext t B A); [|exact Hk]. intros i j Hi Hj. symmetry. apply E; assumption.
  Qed.
  Lemma fulfilled_ext t (A B : mat) : (forall i j, i < t -> j < t -> A i j = B i j) -> minpoly_fulfilled t A -> minpoly_fulfilled t B.
  Proof. intros E [g [H1 H2]]. exists g. split; [apply (is_minimal_ext t A B); assumption|exact H2]. Qed.

  Lemma minpoly_loop_iff t M n : forall k N, (forall i j, i < t -> j < t -> N i j = mat_pow t M (S k) i j) ->
    (minpoly_loop t M N n <-> forall i, k < i <= k + n -> minpoly_fulfilled t (mat_pow t M i)).
  Proof.
    induction n as [|n IH]; intros k N E; cbn [minpoly_loop].
    - split; [intros _ i Hi; lia|trivial].
    - assert (E2 : forall i j, i < t -> j < t -> mat_mul t M N i j = mat_pow t M (S (S k)) i j).
      { intros i j Hi Hj. change (mat_pow t M (S (S k))) with (mat_mul t M (mat_pow t M (S k))). unfold mat_mul.
        apply sumn_ext. intros l Hl. rewrite E by assumption. reflexivity. }
      rewrite (IH (S k) (mat_mul t M N) E2). split.
      + intros [H1 H2] i Hi. destruct (Nat.eq_dec i (S k)) as [->|D]; [apply (fulfilled_ext t N); assumption|]. apply H2. lia.
      + intros H. split; [|intros i Hi; apply H; lia].
        apply (fulfilled_ext t (mat_pow t M (S k))); [intros; symmetry; apply E; assumption|]. apply H. lia.
  Qed.
  Lemma check_minpoly_iff t M : check_minpoly_condition t M <->
    forall i, 1 <= i <= 2 * t -> minpoly_fulfilled t (mat_pow t M i).
  Proof.
    unfold check_minpoly_condition. rewrite (minpoly_loop_iff t M (2 * t) 0 M).
    - split; intros H i Hi; apply H; lia.
    - intros i j Hi Hj. cbn [mat_pow]. unfold mat_mul. symmetry. rewrite (sumn_single HF t j); [|exact Hj|].
      + unfold mat_id. rewrite Nat.eqb_refl. ring.
      + intros l Hl N. unfold mat_id. destruct (Nat.eqb_spec l j); [contradiction|]. ring.
  Qed.

  Lemma repeatM_matrix t (f : list F -> res (list F)) (A : mat) :
    (forall x, length x = t -> f x = Ok (mat_apply t t A x)) ->
    forall i x, length x = t -> repeatM i f x = Ok (mat_apply t t (mat_pow t A i) x).
  Proof.
    intros H. induction i as [|i IH]; intros x Hx; cbn [repeatM].
    - cbn [mat_pow]. rewrite (mat_apply_id HF) by exact Hx. reflexivity.
    - rewrite H by exact Hx. cbn [bind]. rewrite IH by apply mat_apply_length. f_equal.
      assert (Ex : (length x =? t) = true) by (apply Nat.eqb_eq, Hx).
      set (v := exist _ x Ex : vec F t).
      change (mat_apply t t (mat_pow t A i) (mat_apply t t A (proj1_sig v)) = mat_apply t t (mat_pow t A (S i)) (proj1_sig v)).
      rewrite <- !mop_list, !(mop_pow HF). apply f_equal. cbn [iter]. apply iter_shift.
  Qed.
End Generic.

(** ** The certificate of one instance *)
Definition mp_cert (P : mparams) (Hok : params_ok P = true) (I : p2_instance) (f : list Z) (L : positive)
    (qs : list (nat * list Z * list Z)) : bool :=
  let z := map (f_of_Z (FOps := fp_ops P Hok)) in
  minpoly_b (Fo := fp_ops P Hok) (z (qi_diag I)) (z f) (Z.to_pos (qi_p I)) L (4 * qi_t I)
    (map (fun '(q, y, r) => (q, z y, z r)) qs).

Theorem mp_no_small P Hok I f L qs : prime (qi_p I) -> p2_cert P Hok I = true -> mp_cert P Hok I f L qs = true ->
  forall F (Fo : FOps F), is_prime_field Fo (qi_p I) -> forall i, 1 <= i <= 4 * qi_t I ->
  no_small (qi_t I) (mat_pow (qi_t I) (entry (map (map (f_of_Z (F := F))) (qi_mat I))) i).
Proof.
  intros Hpr H HM F Fo HP i Hi. destruct (p2_cert_parts P Hok I H) as [Ep [H7 [Hb [HA [HC HE]]]]].
  assert (HPc : is_prime_field (fp_ops P Hok) (qi_p I)).
  { rewrite <- Ep. apply fp_is_prime_field; rewrite Ep; [exact Hpr|lia]. }
  assert (E1 : qi_p I = Zpos (Z.to_pos (qi_p I))) by (rewrite Z2Pos.id by lia; reflexivity).
  assert (E2 : length (map (f_of_Z (FOps := fp_ops P Hok)) (qi_diag I)) = qi_t I) by (rewrite map_length; apply (pc_diag_length I HC)).
  pose proof (minpoly_ok HPc _ _ _ _ _ _ E1 E2 HM i Hi) as HN.
  eapply (no_small_transfer HPc HP); [|exact HN].
  apply (mat_pow_transfer HPc HP). intros k l Hk Hl.
  rewrite (map_of_Z_entry _ _ _ _ _ (pc_mat_shape I HC)), (pc_internal I HC) by assumption.
  unfold jmat. assert (Em : forall z, f_of_Z (z mod qi_p I) = (f_of_Z z : F)).
  { intros z. apply (f_of_Z_eq_iff HP). apply Zmod_mod. }
  rewrite Em. destruct (k =? l).
  - rewrite (nth_map_d _ _ k 0%Z) by (rewrite (pc_diag_length I HC); exact Hk).
    rewrite (phi_add HPc HP), (phi_1 HPc HP), (phi_of_Z HPc HP), (f_of_Z_add HP), (f_of_Z_1 HP). reflexivity.
  - rewrite (phi_1 HPc HP). apply (f_of_Z_1 HP).
Qed.
