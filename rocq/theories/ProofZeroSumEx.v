(** * ProofZeroSumEx: the degree bound is attained, and zero sums need it *)
From Verif Require Import Base Field Spec SpecPoly PolyFun SpecPoseidon2 ModelPoseidon2 F13.
Local Open Scope nat_scope.

Definition ex_low d : res (Poseidon2Params F13) := p2_new true 3 d 2 0 (l13 [1;1;2]%Z) [] (map l13 [[1;2;3];[4;0;8]]%Z).
Definition all13 : list F13 := l13 [0;1;2;3;4;5;6;7;8;9;10;11;12]%Z.
Definition get {A} (r : res (list A)) : list A := match r with Ok l => l | _ => [] end.

Lemma all13_enumerates : enumerates all13.
Proof.
  split.
  - apply (NoDup_map_inv f_to_Z). vm_compute. repeat constructor; cbn [In]; lia.
  - intros x. pose proof (pf_range _ _ F13_field x) as R. rewrite <- (pf_of_to _ _ F13_field x). unfold all13, l13. apply in_map.
    generalize dependent (f_to_Z x). intros z R. cbn [In]. lia.
Qed.

Lemma get_sum (h : F13 -> F13) perm a b (g : F13 -> list F13) k : (forall x, perm (line a b x) = Ok (g x)) ->
  sum_over all13 (fun x => fmul (h x) (nth k (g x) f0)) = sum_over all13 (fun x => fmul (h x) (nth k (get (perm (line a b x))) f0)).
Proof. intros H. unfold sum_over. f_equal. apply map_ext. intros x. rewrite H. reflexivity. Qed.

Theorem bound_attained P : ex_low 3 = Ok P -> ~ line_degree 3 8 (p2_permutation true P).
Proof.
  intros HP H. destruct (H (l13 [1;2;3]%Z) (l13 [1;5;0]%Z) eq_refl) as [g [Eg Hg]].
  assert (Z : sum_over all13 (fun x => fmul (fpow x 3) (nth 0 (g x) f0)) = f0).
  { apply (zero_sum F13_is_field 11); [|exact all13_enumerates|vm_compute; lia].
    apply (poly_mul F13_is_field 3 8 (fun x => fpow x 3)); [|apply Hg]. apply (poly_pow F13_is_field 1 (fun x => x) 3), (poly_id F13_is_field). lia. }
  rewrite (get_sum _ _ _ _ g 0 Eg) in Z. vm_compute in HP. injection HP as <-. apply (f_equal f_to_Z) in Z. vm_compute in Z. discriminate Z.
Qed.
Theorem zero_sum_fails P : ex_low 5 = Ok P -> ~ line_zero_sum 3 (p2_permutation true P).
Proof.
  intros HP H. destruct (H (l13 [1;2;3]%Z) (l13 [1;5;0]%Z) all13 eq_refl all13_enumerates) as [g [Eg Hg]].
  specialize (Hg 0).
  assert (Z : sum_over all13 (fun x => fmul f1 (nth 0 (g x) f0)) = f0).
  { rewrite (sum_scale F13_is_field). rewrite Hg. vm_compute. reflexivity. }
  rewrite (get_sum _ _ _ _ g 0 Eg) in Z. vm_compute in HP. injection HP as <-. apply (f_equal f_to_Z) in Z. vm_compute in Z. discriminate Z.
Qed.
