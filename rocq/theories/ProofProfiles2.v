(** * Getters and the Poseidon2 build profiles *)
From Verif Require Import Base Field ModelUtils ModelPoseidon2 ModelPoseidon ModelGmimc ModelNeptune LoopLemmas.

Lemma gm_getters {F} (rng : nat -> F) t d rounds P : gm_new rng t d rounds = Ok P ->
  gm_get_t P = t /\ gm_params_get_t P = t /\ gm_params_get_rounds P = rounds.
Proof. unfold gm_new. intros H. inv_ok H. inversion H. repeat split. Qed.

Section P.
  Context {F} {Fo : FOps F}.
  Lemma np_get_t_new dbg fuel (rng : nat -> F) t d rf rp P : np_new dbg fuel rng t d rf rp = Ok P -> np_get_t P = t.
  Proof.
    unfold np_new. intros H. do 4 inv_ok H. destruct (np_instantiate_rc t a2 rng 0) as [rcs pos].
    inv_ok H. destruct a3 as [m_e pos']. repeat (inv_ok H || (match goal with a : _ * _ |- _ => destruct a end)). inversion H. reflexivity.
  Qed.
  Lemma p2_profiles t d rf rp (diag : list F) (mi rc : list (list F)) : (N.of_nat rf + N.of_nat rp < usize_mod)%N ->
    p2_new true t d rf rp diag mi rc = p2_new false t d rf rp diag mi rc /\
    forall P x, p2_new true t d rf rp diag mi rc = Ok P ->
      p2_permutation true P x = p2_permutation false P x /\ p2_compress true P x = p2_compress false P x.
  Proof.
    intros Hr. split; [unfold p2_new; rewrite !uadd_ok by exact Hr; reflexivity|]. intros P x HP.
    assert (E : forall x, p2_permutation true P x = p2_permutation false P x).
    { intros y. assert (Hb : (N.of_nat (p2_rounds_f_beginning P) + N.of_nat (p2_rounds_p P) < usize_mod)%N).
      { unfold p2_new in HP. do 3 inv_ok HP.
        assert (Hh : rf / 2 <= rf) by (apply Nat.div_le_upper_bound; lia). set (h := rf / 2) in *. clearbody h.
        inversion HP; subst. cbn [p2_rounds_f_beginning p2_rounds_p]. lia. }
      unfold p2_permutation. rewrite !uadd_ok by exact Hb. reflexivity. }
    split; [apply E|]. unfold p2_compress. apply bind_ext. intros a _. apply bind_ext. intros b _. rewrite E. reflexivity.
  Qed.
End P.
