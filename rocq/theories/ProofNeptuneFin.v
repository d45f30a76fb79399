(** * Neptune: statements in terms of the constructor (C27, C32) *)
From Verif Require Import Base Field Spec LinAlg LoopLemmas MatLoops ModelPoseidon2 ModelRandom ModelNeptune SpecNeptune
  SpecPoseidon2 ProofPoseidon2 ProofNeptuneParams ProofNeptune ProofNeptuneBij.

Section NpFin.
  Context {F : Type} {Fo : FOps F} (HF : is_field Fo).
  Add Ring FringNpF : (ff_ring _ HF).

  Theorem np_sbox_formula dbg fuel rng t d rf rp P : np_new dbg fuel rng t d rf rp = Ok P ->
    (N.of_nat rf + N.of_nat rp < usize_mod)%N ->
    (forall x1 x2, np_external_sbox_prime P x1 x2 = let '(al, be, ga) := np_abc P in np_pair al be ga x1 x2) /\
    (forall x, length x = t -> np_external_sbox P x = Ok (np_ref_sbox t (np_abc P) x)).
  Proof.
    intros H Hov. destruct (np_new_ok HF _ _ _ _ _ _ _ _ H Hov) as [[_ [_ Hev]] (_ & _ & _ & _ & _ & _ & _ & _ & _ & _ & [ka Ea] & _)].
    split.
    - intros x1 x2. rewrite (np_pair_ok HF P (rng ka) x1 x2 Ea), Ea. reflexivity.
    - intros x Hx. apply (np_sbox_layer HF P (rng ka)); assumption.
  Qed.

  Theorem np_sbox_bijective ga :
    (fnat 5 <> (f0 : F) <-> forall x1 x2 x1' x2' : F, np_pair f1 f1 ga x1 x2 = np_pair f1 f1 ga x1' x2' -> (x1, x2) = (x1', x2')) /\
    (fnat 5 <> (f0 : F) -> forall y1 y2 : F, exists x1 x2, np_pair f1 f1 ga x1 x2 = (y1, y2)).
  Proof.
    assert (I5 : fnat 5 <> (f0 : F) -> exists i5 : F, fmul i5 (fnat 5) = f1).
    { intros N. exists (finv (fnat 5)). apply (ff_inv _ HF). exact N. }
    split; [split|].
    - intros N x1 x2 x1' x2' E. destruct (I5 N) as [i5 H5].
      rewrite <- (pair_inv_l HF i5 ga x1 x2 H5), <- (pair_inv_l HF i5 ga x1' x2' H5), E. reflexivity.
    - intros Hi H5. specialize (Hi _ _ _ _ (pair_collision HF ga H5)). injection Hi as E. symmetry in E. exact (ff_one_neq_zero _ HF E).
    - intros N y1 y2. destruct (I5 N) as [i5 H5]. eexists _, _. apply (pair_inv_r HF i5 ga y1 y2 H5).
  Qed.

  Theorem np_new_contents dbg fuel rng t d rf rp P : np_new dbg fuel rng t d rf rp = Ok P ->
    (N.of_nat rf + N.of_nat rp < usize_mod)%N ->
    (In d [3; 5; 7] /\ rf mod 2 = 0 /\ t mod 2 = 0) /\
    np_t P = t /\ np_d P = d /\ np_rounds_f_beginning P = rf / 2 /\ np_rounds_p P = rp /\ np_rounds_f_end P = rf / 2 /\ np_rounds P = rf + rp /\
    (dims (rf + rp) t (np_rc P) /\ forall i j, i < rf + rp -> j < t -> entry (np_rc P) i j = rng (i * t + j)) /\
    (dims t t (np_m_e P) /\ forall i j, i < t -> j < t -> entry (np_m_e P) i j = np_ext_entry t (rf + rp) rng i j) /\
    (length (np_mu P) = t /\ forall i, i < t -> fadd (nth i (np_mu P) f0) f1 <> f0) /\
    (exists ga, np_abc P = (f1, f1, ga)) /\
    np_a_ P = (f1, fadd (fadd f1 f1) f1, fadd (fadd f1 f1) (fadd f1 f1)).
  Proof.
    intros H Hov. destruct (np_new_ok HF _ _ _ _ _ _ _ _ H Hov) as [HA (E1 & E2 & E3 & E4 & E5 & E6 & E7 & E8 & L & Hm & [ka Ea] & Ea')].
    split; [exact HA|]. do 6 (split; [assumption|]). rewrite E7, E8. split.
    { split; [apply mk_mat_dims|]. intros i j Hi Hj. rewrite mk_mat_entry by assumption. reflexivity. }
    split. { split; [apply mk_mat_dims|]. intros i j Hi Hj. rewrite mk_mat_entry by assumption. reflexivity. }
    split. { split; [exact L|]. intros i Hi. destruct (Hm i Hi) as [k [_ [N ->]]]. replace (fadd (fsub (rng k) f1) f1) with (rng k) by ring. exact N. }
    split; [exists (rng ka); exact Ea|]. rewrite Ea'. repeat apply f_equal2; try reflexivity. ring.
  Qed.

  Theorem np_new_outcome dbg fuel rng t d rf rp : (N.of_nat rf + N.of_nat rp < usize_mod)%N ->
    (~ (In d [3; 5; 7] /\ rf mod 2 = 0 /\ t mod 2 = 0) <-> np_new dbg fuel rng t d rf rp = Panic) /\
    ((forall q, exists k, k < fuel /\ rng (q + k) <> (f0 : F)) -> In d [3; 5; 7] /\ rf mod 2 = 0 /\ t mod 2 = 0 -> exists P, np_new dbg fuel rng t d rf rp = Ok P).
  Proof.
    intros Hov. split; [split|].
    - apply np_new_bad.
    - intros E HA. destruct (np_new_good dbg fuel rng t d rf rp HA Hov) as [C|[P C]]; congruence.
    - intros HR HA. apply (np_new_returns HF); assumption.
  Qed.
End NpFin.
