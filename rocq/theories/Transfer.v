(** * Transfer: any two prime fields of the same characteristic are isomorphic *)
From Verif Require Import Base Field Spec LinAlg SpecPoseidon.

Section Transfer.
  Context {F : Type} {Fo : FOps F} {G : Type} {Go : FOps G} {p : Z}
          (HPF : is_prime_field Fo p) (HPG : is_prime_field Go p).

  Definition phi (x : F) : G := f_of_Z (f_to_Z x).
  Definition psi (y : G) : F := f_of_Z (f_to_Z y).

  Lemma phi_to_Z x : f_to_Z (phi x) = f_to_Z x.
  Proof. unfold phi. rewrite (pf_to_of _ _ HPG). apply (f_to_Z_small HPF). Qed.
  Lemma psi_to_Z x : f_to_Z (psi x) = f_to_Z x.
  Proof. unfold psi. rewrite (pf_to_of _ _ HPF). apply (f_to_Z_small HPG). Qed.
  Lemma phi_psi y : phi (psi y) = y.
  Proof. apply (f_to_Z_inj HPG). rewrite phi_to_Z. apply psi_to_Z. Qed.
  Lemma phi_add x y : phi (fadd x y) = fadd (phi x) (phi y).
  Proof. apply (f_to_Z_inj HPG). rewrite phi_to_Z, (pf_add _ _ HPF), (pf_add _ _ HPG), !phi_to_Z. reflexivity. Qed.
  Lemma phi_mul x y : phi (fmul x y) = fmul (phi x) (phi y).
  Proof. apply (f_to_Z_inj HPG). rewrite phi_to_Z, (pf_mul _ _ HPF), (pf_mul _ _ HPG), !phi_to_Z. reflexivity. Qed.
  Lemma phi_0 : phi f0 = f0.
  Proof. apply (f_to_Z_inj HPG). rewrite phi_to_Z, (pf_zero _ _ HPF), (pf_zero _ _ HPG). reflexivity. Qed.
  Lemma phi_1 : phi f1 = f1.
  Proof. apply (f_to_Z_inj HPG). rewrite phi_to_Z, (pf_one _ _ HPF), (pf_one _ _ HPG). reflexivity. Qed.
  Lemma phi_of_Z z : phi (f_of_Z z) = f_of_Z z.
  Proof. apply (f_to_Z_inj HPG). rewrite phi_to_Z, (pf_to_of _ _ HPF), (pf_to_of _ _ HPG). reflexivity. Qed.
  Lemma phi_inj x y : phi x = phi y -> x = y.
  Proof. intros E. apply (f_to_Z_inj HPF). rewrite <- !phi_to_Z, E. reflexivity. Qed.

  Lemma phi_sumn n (f : nat -> F) : phi (sumn n f) = sumn n (fun i => phi (f i)).
  Proof. induction n as [|n IH]; cbn [sumn]; [apply phi_0|]. rewrite phi_add, IH. reflexivity. Qed.

  Lemma nonsingular_transfer k (A : nat -> nat -> F) (B : nat -> nat -> G) :
    (forall i j, i < k -> j < k -> B i j = phi (A i j)) -> nonsingular k A -> nonsingular k B.
  Proof.
    intros E HA x Hx j Hj.
    assert (H : psi (x j) = f0).
    { apply (HA (fun i => psi (x i))); [|exact Hj]. intros i Hi. apply phi_inj. rewrite phi_sumn, phi_0.
      rewrite <- (Hx i Hi). apply sumn_ext. intros l Hl. rewrite phi_mul, phi_psi, E by assumption. reflexivity. }
    rewrite <- (phi_psi (x j)), H. apply phi_0.
  Qed.

  Lemma mat_pow_transfer n (A : nat -> nat -> F) (B : nat -> nat -> G) k :
    (forall i j, i < n -> j < n -> B i j = phi (A i j)) ->
    forall i j, i < n -> j < n -> mat_pow n B k i j = phi (mat_pow n A k i j).
  Proof.
    intros E. induction k as [|k IH]; intros i j Hi Hj; cbn [mat_pow].
    - unfold mat_id. destruct (i =? j); [rewrite phi_1|rewrite phi_0]; reflexivity.
    - unfold mat_mul. rewrite phi_sumn. apply sumn_ext. intros l Hl.
      rewrite phi_mul, E, IH by assumption. reflexivity.
  Qed.

  Lemma entry_transfer (m : list (list Z)) r c i j : length m = r -> (forall i, i < r -> length (nth i m []) = c) ->
    i < r -> j < c -> entry (map (map f_of_Z) m) i j = phi (entry (map (map f_of_Z) m) i j).
  Proof.
    intros Hr Hc Hi Hj. unfold entry.
    rewrite (nth_indep (map (map (f_of_Z (F := G))) m) [] (map f_of_Z [])) by (rewrite map_length; lia).
    rewrite (nth_indep (map (map (f_of_Z (F := F))) m) [] (map f_of_Z [])) by (rewrite map_length; lia).
    rewrite !map_nth.
    rewrite (nth_indep (map (f_of_Z (F := G)) _) f0 (f_of_Z 0)) by (rewrite map_length, Hc by lia; lia).
    rewrite (nth_indep (map (f_of_Z (F := F)) _) f0 (f_of_Z 0)) by (rewrite map_length, Hc by lia; lia).
    rewrite !map_nth. rewrite phi_of_Z. reflexivity.
  Qed.
End Transfer.
