(** * How often Neptune's internal matrix is singular: C87 *)
From Verif Require Import Base Field Spec ModelNeptune ModelFields SpecNeptune SpecSingular F13 Props_Matrix Props_Neptune.
From Verif Require ProofSingular.
Local Open Scope nat_scope.

(** There are (p-1)^t diagonals of non-zero draws. *)
Theorem C87_diagonal_count :
  forall F (Fo : FOps F) p, is_prime_field Fo p ->
  forall t, exists L : list (list F), NoDup L /\ (forall m, In m L <-> nonzero_diagonal t m) /\
    Z.of_nat (length L) = ((p - 1) ^ Z.of_nat t)%Z.
Proof. exact @ProofSingular.diagonal_count. Qed.
Print Assumptions C87_diagonal_count.

(** The number of diagonals of non-zero draws for which the internal matrix is singular. *)
Theorem C87_singular_count :
  forall F (Fo : FOps F) p, is_prime_field Fo p ->
  forall t, 1 <= t -> (Z.of_nat t < p)%Z -> t mod 2 = 0 ->
  exists L : list (list F), lists_singular t L /\ (p * Z.of_nat (length L) = singular_number p t)%Z.
Proof. exact @ProofSingular.singular_count. Qed.
Print Assumptions C87_singular_count.

(** NeptuneParams::new gives a bijection exactly when, among other conditions on the rest, the draws are not in that list. *)
Theorem C87_bijective_draws :
  forall F (Fo : FOps F) p, is_prime_field Fo p ->
  forall dbg fuel rng t d rf rp (P : NeptuneParams F) L,
    np_new dbg fuel rng t d rf rp = Ok P -> (N.of_nat rf + N.of_nat rp < usize_mod)%N -> 2 <= t -> lists_singular t L ->
    (bijective_on t (np_permutation dbg P) <->
     invertible t (entry (np_m_e P)) /\ (rf = 0 \/ p <> 5%Z) /\
     (rp = 0 \/ (~ In (map (fun a => fadd a f1) (np_mu P)) L /\ Z.gcd (Z.of_nat d) (p - 1) = 1%Z))).
Proof. exact @ProofSingular.np_bijective_draws. Qed.
Print Assumptions C87_bijective_draws.

(** every diagonal can be drawn *)
Theorem C87_every_diagonal :
  forall F (Fo : FOps F) p, is_prime_field Fo p ->
  forall dbg fuel t d rf rp (m : list F), (N.of_nat rf + N.of_nat rp < usize_mod)%N -> 1 <= fuel ->
    In d [3; 5; 7] -> rf mod 2 = 0 -> t mod 2 = 0 -> nonzero_diagonal t m ->
    exists rng P, np_new dbg fuel rng t d rf rp = Ok P /\ map (fun a => fadd a f1) (np_mu P) = m.
Proof. exact @ProofSingular.np_every_diagonal. Qed.
Print Assumptions C87_every_diagonal.

(** the fraction of singular diagonals is between 1/(2p) and 2/p *)
Theorem C87_fraction :
  forall p t, 2 <= t -> (Z.of_nat t * Z.of_nat t + 2 <= p)%Z ->
    ((p - 1) ^ Z.of_nat t < 2 * singular_number p t)%Z /\ (singular_number p t < 2 * (p - 1) ^ Z.of_nat t)%Z.
Proof. exact ProofSingular.fraction. Qed.
Print Assumptions C87_fraction.

(** the shipped instances (about 2^-31 for BabyBear) *)
Theorem C87_shipped_fraction :
  Forall (fun i => (Z.of_nat (ni_t i) < ni_p i)%Z /\ ni_t i mod 2 = 0 /\
    ((ni_p i - 1) ^ Z.of_nat (ni_t i) < 2 * singular_number (ni_p i) (ni_t i))%Z /\
    (singular_number (ni_p i) (ni_t i) < 2 * (ni_p i - 1) ^ Z.of_nat (ni_t i))%Z) np_instances.
Proof. exact ProofSingular.shipped_fraction. Qed.
Print Assumptions C87_shipped_fraction.

(** ** Examples: 13 elements and width 2: 12 of the 144 diagonals; width 4: 1900 of 20736 *)
Example C87_ex_count : singular_number 13 2 = (13 * 12)%Z /\ singular_number 13 4 = (13 * 1900)%Z.
Proof. split; reflexivity. Qed.
Example C87_ex_instances : length np_instances = 12 /\ exists i, In i np_instances /\ ni_p i = p_babybear /\ ni_t i = 24.
Proof. split; [reflexivity|]. eexists. split; [unfold np_instances; do 8 right; left; reflexivity|]. split; reflexivity. Qed.
(** diagonal (2, 7): 2 * 7 = 14 = 1, so the determinant 2 * 7 - 1 is zero *)
Example C87_ex_singular : nonzero_diagonal (Fo := F13_ops) 2 (l13 [2; 7]%Z) /\
  ~ invertible (Fo := F13_ops) 2 (np_int_matrix (fun i => nth i (l13 [2; 7]%Z) (@f0 _ F13_ops))).
Proof.
  split.
  - split; [reflexivity|]. intros i Hi E. apply (f_equal (@f_to_Z _ F13_ops)) in E. do 2 (destruct i as [|i]; [vm_compute in E; discriminate|]). lia.
  - intros H. apply (LinAlg.invertible_nonsingular F13_is_field) in H.
    assert (E : e13 1 = @f0 _ F13_ops).
    { apply (H (fun j => if j =? 0 then e13 1 else e13 11)) with (j := 0); [|lia]. intros i Hi. apply (ff_eqb _ F13_is_field).
      do 2 (destruct i as [|i]; [vm_compute; reflexivity|]). lia. }
    apply (f_equal (@f_to_Z _ F13_ops)) in E. vm_compute in E. discriminate.
Qed.
Example C87_ex_drawn : exists rng P, np_new (Fo := F13_ops) true 1 rng 2 5 2 3 = Ok P /\ map (fun a => @fadd _ F13_ops a (@f1 _ F13_ops)) (np_mu P) = l13 [2; 7]%Z.
Proof.
  apply (C87_every_diagonal F13 F13_ops 13 F13_field); try reflexivity; [right; left; reflexivity|apply C87_ex_singular].
Qed.
