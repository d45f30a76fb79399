(** * How many draws give an invertible Neptune external matrix: C90 *)
From Verif Require Import Base Field Spec ModelNeptune ModelFields SpecNeptune SpecSingular SpecDraws F13 Props_Matrix Props_Neptune.
From Verif Require ProofDraws.
Local Open Scope nat_scope.

(** There are p^(n*n) square matrices, and (p^n - 1) (p^n - p) ... (p^n - p^(n-1)) invertible ones. *)
Theorem C90_matrix_count :
  forall F (Fo : FOps F) p, is_prime_field Fo p ->
  forall n, exists L : list (list (list F)), NoDup L /\ (forall m, In m L <-> dims n n m) /\
    Z.of_nat (length L) = (p ^ Z.of_nat (n * n))%Z.
Proof. exact @ProofDraws.matrix_count. Qed.
Print Assumptions C90_matrix_count.

Theorem C90_invertible_count :
  forall F (Fo : FOps F) p, is_prime_field Fo p ->
  forall n, exists L : list (list (list F)), lists_invertible n L /\ Z.of_nat (length L) = invertible_number p n.
Proof. exact @ProofDraws.invertible_count. Qed.
Print Assumptions C90_invertible_count.

(** For every width but 4 and 8 the external matrix is invertible exactly when the two blocks, drawn
    after the round constants, are both in that list. *)
Theorem C90_external_draws :
  forall F (Fo : FOps F) p, is_prime_field Fo p ->
  forall dbg fuel rng t d rf rp (P : NeptuneParams F) L,
    np_new dbg fuel rng t d rf rp = Ok P -> (N.of_nat rf + N.of_nat rp < usize_mod)%N -> t <> 4 -> t <> 8 -> lists_invertible (t / 2) L ->
    (invertible t (entry (np_m_e P)) <->
     In (drawn rng (t / 2) ((rf + rp) * t)) L /\ In (drawn rng (t / 2) ((rf + rp) * t + t / 2 * (t / 2))) L).
Proof. exact @ProofDraws.ext_draws. Qed.
Print Assumptions C90_external_draws.

(** When NeptuneParams::new gives a bijection, in terms of the draws alone. *)
Theorem C90_bijective_draws :
  forall F (Fo : FOps F) p, is_prime_field Fo p ->
  forall dbg fuel rng t d rf rp (P : NeptuneParams F) L S,
    np_new dbg fuel rng t d rf rp = Ok P -> (N.of_nat rf + N.of_nat rp < usize_mod)%N -> 2 <= t -> t <> 4 -> t <> 8 ->
    lists_invertible (t / 2) L -> lists_singular t S ->
    (bijective_on t (np_permutation dbg P) <->
     (In (drawn rng (t / 2) ((rf + rp) * t)) L /\ In (drawn rng (t / 2) ((rf + rp) * t + t / 2 * (t / 2))) L) /\ (rf = 0 \/ p <> 5%Z) /\
     (rp = 0 \/ (~ In (map (fun a => fadd a f1) (np_mu P)) S /\ Z.gcd (Z.of_nat d) (p - 1) = 1%Z))).
Proof. exact @ProofDraws.bijective_draws. Qed.
Print Assumptions C90_bijective_draws.

(** Every pair of blocks can be drawn, together with every diagonal. *)
Theorem C90_every_draw :
  forall F (Fo : FOps F) p, is_prime_field Fo p ->
  forall dbg fuel t d rf rp (e o : list (list F)) (m : list F), (N.of_nat rf + N.of_nat rp < usize_mod)%N -> 1 <= fuel ->
    In d [3; 5; 7] -> rf mod 2 = 0 -> t mod 2 = 0 -> t <> 4 -> t <> 8 -> dims (t / 2) (t / 2) e -> dims (t / 2) (t / 2) o -> nonzero_diagonal t m ->
    exists rng P, np_new dbg fuel rng t d rf rp = Ok P /\ map (fun a => fadd a f1) (np_mu P) = m /\
      drawn rng (t / 2) ((rf + rp) * t) = e /\ drawn rng (t / 2) ((rf + rp) * t + t / 2 * (t / 2)) = o.
Proof. exact @ProofDraws.np_every_draw. Qed.
Print Assumptions C90_every_draw.

(** The fraction of singular matrices is at least 1/p and less than 1/(p-1), for every size. *)
Theorem C90_fraction :
  forall p n, (2 <= p)%Z -> 1 <= n ->
    (p * invertible_number p n <= (p - 1) * p ^ Z.of_nat (n * n))%Z /\
    ((p - 2) * p ^ Z.of_nat (n * n) < (p - 1) * invertible_number p n)%Z.
Proof. exact ProofDraws.fraction. Qed.
Print Assumptions C90_fraction.

(** the shipped instances whose matrices are drawn *)
Theorem C90_shipped_fraction :
  Forall (fun i => ni_t i = 4 \/ ni_t i = 8 \/
    (let n := (ni_t i / 2)%nat in
     ni_p i * invertible_number (ni_p i) n <= (ni_p i - 1) * ni_p i ^ Z.of_nat (n * n) /\
     (ni_p i - 2) * ni_p i ^ Z.of_nat (n * n) < (ni_p i - 1) * invertible_number (ni_p i) n)%Z) np_instances.
Proof. exact ProofDraws.shipped_fraction. Qed.
Print Assumptions C90_shipped_fraction.

(** ** Examples: 13 elements: 12 of 13 matrices of size 1, 26208 of 28561 of size 2 *)
Example C90_ex_count : invertible_number 13 1 = 12%Z /\ invertible_number 13 2 = (168 * 156)%Z /\ (13 ^ 4 = 28561)%Z.
Proof. repeat split; reflexivity. Qed.
(** the field with two elements has 6 of 16 invertible matrices of size 2, and 168 of 512 of size 3 *)
Example C90_ex_count_2 : invertible_number 2 2 = 6%Z /\ invertible_number 2 3 = 168%Z.
Proof. split; reflexivity. Qed.
Example C90_ex_drawn : drawn ex_rng 3 30 = map l13 [[4; 0; 11]%Z; [11; 0; 4]%Z; [10; 5; 2]%Z].
Proof. reflexivity. Qed.
(** width 6: the draws can give a singular matrix: both blocks zero *)
Example C90_ex_singular : exists rng P, np_new (Fo := F13_ops) true 1 rng 6 5 2 3 = Ok P /\ ~ bijective_on 6 (np_permutation true P).
Proof.
  set (z := repeat (l13 [0; 0; 0]%Z) 3).
  assert (Dz : dims 3 3 z). { split; [reflexivity|]. intros i Hi. do 3 (destruct i as [|i]; [reflexivity|]). lia. }
  assert (Nd : nonzero_diagonal (Fo := F13_ops) 6 (repeat (e13 2) 6)).
  { split; [reflexivity|]. intros i Hi E. apply (f_equal (@f_to_Z _ F13_ops)) in E. do 6 (destruct i as [|i]; [vm_compute in E; discriminate|]). lia. }
  destruct (C90_every_draw F13 F13_ops 13 F13_field true 1 6 5 2 3 z z (repeat (e13 2) 6)) as (rng & P & E & _ & Ee & _); try reflexivity; try lia; auto.
  { right; left; reflexivity. }
  exists rng, P. split; [exact E|]. intros B.
  destruct (C90_invertible_count F13 F13_ops 13 F13_field 3) as [L [HL _]].
  apply (C30_neptune_bijective_iff F13 F13_ops 13 F13_field true 1 rng 6 5 2 3 P E ltac:(vm_compute; reflexivity) ltac:(lia)) in B. destruct B as [B _].
  apply (C90_external_draws F13 F13_ops 13 F13_field true 1 rng 6 5 2 3 P L E ltac:(vm_compute; reflexivity) ltac:(lia) ltac:(lia) HL) in B. destruct B as [B _].
  change (6 / 2) with 3 in *. rewrite Ee in B. apply HL in B. destruct B as [_ B]. apply (LinAlg.invertible_nonsingular F13_is_field) in B.
  assert (K : e13 1 = @f0 _ F13_ops).
  { apply (B (fun _ => e13 1)) with (j := 0); [|lia]. intros i Hi. apply (ff_eqb _ F13_is_field). do 3 (destruct i as [|i]; [vm_compute; reflexivity|]). lia. }
  apply (f_equal (@f_to_Z _ F13_ops)) in K. vm_compute in K. discriminate.
Qed.
(** 5 of the 12 shipped instances draw their external matrix *)
Example C90_ex_instances : length (filter (fun i => negb ((ni_t i =? 4) || (ni_t i =? 8))) np_instances) = 5.
Proof. reflexivity. Qed.
