(** * Merkle accumulators over the four permutations (C41) *)
From Verif Require Import Base Field Spec LinAlg SpecPoseidon2 SpecPoseidon SpecGmimc SpecNeptune ModelUtils ModelPoseidon2 ModelPoseidon
  ModelGmimc ModelNeptune ModelMerkle SpecMerkle SpecMerkleVariants ProofMerkleAcc.
From Verif Require ProofPoseidon2 ProofPoseidon2Extra ProofPoseidonFin ProofPoseidon ProofGmimc ProofNeptuneBij.

Section Generic.
  Context {F : Type} (f0 : F) (perm : list F -> res (list F)) (z : list F).
  Definition gcompress (input : list F) : res F :=
    a <- idx input 0 ;; b <- idx input 1 ;; out <- perm (a :: b :: z) ;; idx out 0.

  Lemma gclaim t w (wf : Prop) dbg ref : w = S (S (length z)) -> (forall x, length x <> t -> perm x = Panic) ->
    (t = w -> wf -> forall x, length x = t -> perm x = Ok (ref x) /\ 1 <= length (ref x)) ->
    compress_claim f0 t w z wf dbg gcompress ref.
  Proof.
    intros Hw Hp Ho.
    assert (S1 : forall input, length input < 2 -> gcompress input = Panic).
    { intros [|a [|b input]] Hl; [reflexivity|reflexivity|cbn in Hl; lia]. }
    assert (S2 : t <> w -> forall input, gcompress input = Panic).
    { intros Hn [|a [|b input]]; [reflexivity|reflexivity|]. unfold gcompress. cbn [idx nth_error bind]. rewrite Hp by (cbn [length]; lia). reflexivity. }
    assert (S3 : t = w -> wf -> forall l r rest, gcompress (l :: r :: rest) = Ok (nth 0 (ref (l :: r :: z)) f0)).
    { intros Ht Hwf l r rest. unfold gcompress. cbn [idx nth_error bind]. destruct (Ho Ht Hwf (l :: r :: z)) as [E L]; [cbn [length]; lia|].
      rewrite E. cbn [bind]. apply idx_ok. exact L. }
    split; [exact S1|]. split; [exact S2|]. split; [exact S3|]. intros fuel set Hf Hn. split.
    - intros Ht. apply fp_acc_panic; [intros a b; apply S2; exact Ht|exact Hn|exact Hf].
    - intros Ht Hwf Hs. apply fp_acc_root; try assumption. intros a b. apply S3; assumption.
  Qed.
End Generic.

Lemma fold_len {F} (f : list F -> nat -> list F) t l : (forall s r, length (f s r) = t) -> forall s, length s = t -> length (fold_left f l s) = t.
Proof. intros Hf. induction l as [|r l IH]; intros s Hs; [exact Hs|]. cbn [fold_left]. apply IH. apply Hf. Qed.

Section Four.
  Context {F} {Fo : FOps F}.

  Lemma p2_compress_claim (HF : is_field Fo) dbg t d rf rp (diag : list F) (mi rc : list (list F)) P :
    p2_new dbg t d rf rp diag mi rc = Ok P -> (N.of_nat rf + N.of_nat rp < usize_mod)%N ->
    compress_claim f0 t 3 [f0] (sbox_degree d /\ p2_data_ok t rf rp diag rc) dbg (p2_compress dbg P) (p2_ref t d rf rp diag rc).
  Proof.
    intros HP Hr. apply (gclaim f0 (p2_permutation dbg P) [f0]); [reflexivity| |].
    - intros x Hx. unfold p2_permutation. pose proof (ProofPoseidon2Extra.p2_get_t_new _ _ _ _ _ _ _ _ _ HP) as Et. unfold p2_get_t in Et.
      rewrite Et. replace (length x =? t) with false; [reflexivity|]. symmetry. apply Nat.eqb_neq. exact Hx.
    - intros Ht [Hd Hc] x Hx. assert (E : p2_permutation dbg P x = Ok (p2_ref t d rf rp diag rc x)).
      { apply (ProofPoseidon2.p2_permutation_ref HF dbg t d rf rp diag mi rc P x HP Hr); try assumption. rewrite Ht. unfold p2_width. cbn. auto. }
      split; [exact E|]. apply (ProofPoseidon2Extra.p2_permutation_returns_iff HF dbg t d rf rp diag mi rc P x HP Hr) in E. lia.
  Qed.
  Lemma ps_new_t dbg t d rf rp (mds rc : list (list F)) P : ps_new dbg t d rf rp mds rc = Ok P -> ps_t P = t.
  Proof.
    intros H. unfold ps_new in H. do 4 inv_ok H. inv_ok H. destruct a3 as [[? ?] ?]. inv_ok H. inversion H; subst. reflexivity.
  Qed.
  Lemma ps_compress_claim (HF : is_field Fo) dbg t d rf rp (mds rc : list (list F)) P :
    ps_new dbg t d rf rp mds rc = Ok P -> (N.of_nat rf + N.of_nat rp < usize_mod)%N ->
    compress_claim f0 t 3 [f0] (dims t t mds /\ forall r, r < rf + rp -> t <= length (nth r rc [])) dbg (ps_compress dbg P) (ps_ref t d rf rp (entry mds) rc).
  Proof.
    intros HP Hr. apply (gclaim f0 (ps_permutation dbg P) [f0]); [reflexivity| |].
    - intros x Hx. unfold ps_permutation. rewrite (ps_new_t _ _ _ _ _ _ _ _ HP). replace (length x =? t) with false; [reflexivity|].
      symmetry. apply Nat.eqb_neq. exact Hx.
    - intros Ht [Hm Hc] x Hx. destruct (ProofPoseidonFin.ps_permutation_ref HF dbg t d rf rp mds rc P x HP Hr Hm Hc) as [E _]. destruct (E Hx) as [E1 _].
      split; [exact E1|]. replace (length (ps_ref t d rf rp (entry mds) rc x)) with t; [lia|]. symmetry. unfold ps_ref.
      repeat (apply fold_len; [intros; unfold ps_ref_full, ps_ref_partial; apply mat_apply_length|]). exact Hx.
  Qed.
  Lemma gm_compress_claim (HF : is_field Fo) dbg rng t d rounds (P : GmimcParams F) : gm_new rng t d rounds = Ok P ->
    compress_claim f0 t 3 [f0] (1 <= rounds) dbg (gm_compress dbg P) (gm_ref t d rounds (map rng (seq 0 rounds))).
  Proof.
    intros HP. apply (gclaim f0 (gm_permutation dbg P) [f0]); [reflexivity| |].
    - intros x Hx. apply (ProofGmimc.gm_outcome HF dbg rng t d rounds P x HP). lia.
    - intros Ht Hr x Hx. destruct (ProofGmimc.gm_reference HF dbg rng t d rounds P x HP Hx ltac:(lia) Hr) as [E _]. split; [exact E|].
      destruct (ProofGmimc.gm_outcome HF dbg rng t d rounds P x HP) as [[_ E1] _]. destruct (E1 ltac:(lia)) as [y [Ey Ly]]. rewrite E in Ey. injection Ey as <-. lia.
  Qed.
  Lemma np_compress_claim {p} (HP : is_prime_field Fo p) dbg fuel rng t d rf rp (P : NeptuneParams F) :
    np_new dbg fuel rng t d rf rp = Ok P -> (N.of_nat rf + N.of_nat rp < usize_mod)%N ->
    compress_claim f0 t 4 [f0; f0] True dbg (np_compress dbg P) (np_ref t d rf rp (np_abc P) (entry (np_m_e P))
         (np_int_matrix (fun i => fadd (nth i (np_mu P) f0) f1)) (np_rc P)).
  Proof.
    intros HN Hr. apply (gclaim f0 (np_permutation dbg P) [f0; f0]); [reflexivity| |].
    - intros x Hx. apply (ProofNeptuneBij.np_permutation_reference HP dbg fuel rng t d rf rp P x HN Hr). left. exact Hx.
    - intros Ht _ x Hx. destruct (ProofNeptuneBij.np_permutation_reference HP dbg fuel rng t d rf rp P x HN Hr) as [E _]. specialize (E Hx ltac:(lia)).
      split; [exact E|]. match goal with |- 1 <= length ?r => replace (length r) with t; [lia|] end. symmetry. unfold np_ref.
      repeat (apply fold_len; [intros; unfold np_ref_ext, np_ref_int; rewrite map_length, seq_length; reflexivity|]). apply mat_apply_length.
  Qed.
End Four.
