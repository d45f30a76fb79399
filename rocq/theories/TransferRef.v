(** * TransferRef: the reference permutations commute with field isomorphisms *)
From Verif Require Import Base Field Spec LinAlg SpecPoseidon SpecPoseidon2 Transfer.

Section TransferRef.
  Context {F : Type} {Fo : FOps F} {G : Type} {Go : FOps G} {p : Z}
          (HPF : is_prime_field Fo p) (HPG : is_prime_field Go p).
  Local Notation phi := (phi (F := F) (G := G)).

  Lemma phi_nth i (x : list F) : nth i (map phi x) f0 = phi (nth i x f0).
  Proof. rewrite <- (phi_0 HPF HPG). apply map_nth. Qed.
  Lemma phi_nth2 i (m : list (list F)) : nth i (map (map phi) m) [] = map phi (nth i m []).
  Proof. exact (map_nth (map phi) m [] i). Qed.
  Lemma phi_fpow x d : phi (fpow x d) = fpow (phi x) d.
  Proof. induction d as [|d IH]; cbn [fpow]; [apply (phi_1 HPF HPG)|]. rewrite (phi_mul HPF HPG), IH. reflexivity. Qed.
  Lemma phi_fnat n : phi (fnat n) = fnat n.
  Proof. unfold fnat. rewrite (phi_sumn HPF HPG). apply sumn_ext. intros. apply (phi_1 HPF HPG). Qed.

  Lemma mat_apply_phi r c (M : nat -> nat -> F) (N : nat -> nat -> G) x :
    (forall i j, i < r -> j < c -> N i j = phi (M i j)) ->
    mat_apply r c N (map phi x) = map phi (mat_apply r c M x).
  Proof.
    intros E. unfold mat_apply. rewrite map_map. apply map_ext_in. intros i Hi. apply in_seq in Hi.
    rewrite (phi_sumn HPF HPG). apply sumn_ext. intros j Hj. rewrite phi_nth, (phi_mul HPF HPG), E by lia. reflexivity.
  Qed.

  Lemma ext_matrix_phi t i j : ext_matrix (F := G) t i j = phi (ext_matrix t i j).
  Proof.
    unfold ext_matrix, M4. destruct (t <? 4); [symmetry; apply phi_fnat|].
    destruct (t =? 4); [symmetry; apply phi_fnat|]. rewrite (phi_mul HPF HPG), !phi_fnat. reflexivity.
  Qed.
  Lemma int_matrix_phi t diag i j : int_matrix (F := G) t (map phi diag) i j = phi (int_matrix t diag i j).
  Proof.
    unfold int_matrix. destruct (t <? 4); [symmetry; apply phi_fnat|].
    destruct (i =? j); [rewrite phi_nth, (phi_add HPF HPG)|]; rewrite (phi_1 HPF HPG); reflexivity.
  Qed.

  Lemma fold_phi {A} (f : list F -> A -> list F) (g : list G -> A -> list G) l :
    (forall s a, g (map phi s) a = map phi (f s a)) -> forall s,
    fold_left g l (map phi s) = map phi (fold_left f l s).
  Proof. intros E. induction l as [|a l IH]; intros s; cbn [fold_left]; [reflexivity|]. rewrite E. apply IH. Qed.

  Lemma p2_ref_phi t d rf rp diag rc x :
    p2_ref t d rf rp (map phi diag) (map (map phi) rc) (map phi x) = map phi (p2_ref t d rf rp diag rc x).
  Proof.
    assert (Hf : forall s r, p2_ref_full t d (nth r (map (map phi) rc) []) (map phi s) = map phi (p2_ref_full t d (nth r rc []) s)).
    { intros s r. unfold p2_ref_full. rewrite phi_nth2.
      rewrite <- (mat_apply_phi t t (ext_matrix t) (ext_matrix t)) by (intros; apply ext_matrix_phi).
      f_equal. rewrite map_map. apply map_ext. intros i. rewrite !phi_nth, phi_fpow, (phi_add HPF HPG). reflexivity. }
    unfold p2_ref. rewrite (mat_apply_phi t t (ext_matrix t) (ext_matrix t)) by (intros; apply ext_matrix_phi).
    rewrite (fold_phi (fun s r => p2_ref_full t d (nth r rc []) s)) by exact Hf.
    rewrite (fold_phi (fun s r => p2_ref_partial t d diag (nth r rc []) s)).
    2:{ intros s r. unfold p2_ref_partial. rewrite phi_nth2.
        rewrite <- (mat_apply_phi t t (int_matrix t diag) (int_matrix t (map phi diag))) by (intros; apply int_matrix_phi).
        f_equal. rewrite map_map. apply map_ext. intros i.
        destruct (i =? 0); rewrite ?phi_fpow, ?(phi_add HPF HPG), ?phi_nth; reflexivity. }
    apply fold_phi. exact Hf.
  Qed.

  Lemma ps_ref_phi t d rf rp (M : nat -> nat -> F) (N : nat -> nat -> G) rc x :
    (forall i j, i < t -> j < t -> N i j = phi (M i j)) ->
    ps_ref t d rf rp N (map (map phi) rc) (map phi x) = map phi (ps_ref t d rf rp M rc x).
  Proof.
    intros E.
    assert (Hf : forall s r, ps_ref_full t d N (nth r (map (map phi) rc) []) (map phi s) = map phi (ps_ref_full t d M (nth r rc []) s)).
    { intros s r. unfold ps_ref_full. rewrite phi_nth2. rewrite <- (mat_apply_phi t t M N) by exact E.
      f_equal. rewrite map_map. apply map_ext. intros i. rewrite !phi_nth, phi_fpow, (phi_add HPF HPG). reflexivity. }
    unfold ps_ref.
    rewrite (fold_phi (fun s r => ps_ref_full t d M (nth r rc []) s)) by exact Hf.
    rewrite (fold_phi (fun s r => ps_ref_partial t d M (nth r rc []) s)).
    2:{ intros s r. unfold ps_ref_partial. rewrite phi_nth2. rewrite <- (mat_apply_phi t t M N) by exact E.
        f_equal. rewrite map_map. apply map_ext. intros i. cbv zeta.
        destruct (i =? 0); rewrite ?phi_fpow, ?(phi_add HPF HPG), ?phi_nth; reflexivity. }
    apply fold_phi. exact Hf.
  Qed.

  Lemma map_phi_of_Z (l : list Z) : map phi (map f_of_Z l) = map f_of_Z l.
  Proof. rewrite map_map. apply map_ext. apply (phi_of_Z HPF HPG). Qed.
  Lemma map2_phi_of_Z (l : list (list Z)) : map (map phi) (map (map f_of_Z) l) = map (map f_of_Z) l.
  Proof. rewrite map_map. apply map_ext. apply map_phi_of_Z. Qed.
End TransferRef.
