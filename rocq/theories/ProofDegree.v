(** * ProofDegree: the outputs of the permutations along a line are polynomials of bounded degree *)
From Verif Require Import Base Field Spec SpecPoly LinAlg PolyFun SpecPoseidon2 SpecPoseidon SpecGmimc SpecNeptune.
Local Open Scope nat_scope.

Section Degree.
  Context {F : Type} {Fo : FOps F} (HF : is_field Fo).
  Add Ring FringDg : (ff_ring _ HF).

  (** every coordinate of a state depending on x is a polynomial of degree at most D *)
  Definition dst (D : nat) (s : F -> list F) : Prop := forall i, poly_le D (fun x => nth i (s x) f0).

  Lemma nth_map_seq_d {A} (f : nat -> A) t i d : nth i (map f (seq 0 t)) d = if i <? t then f i else d.
  Proof.
    destruct (Nat.ltb_spec i t) as [H|H].
    - rewrite (nth_indep _ d (f 0)) by (rewrite map_length, seq_length; lia). rewrite map_nth, seq_nth by lia. reflexivity.
    - apply nth_overflow. rewrite map_length, seq_length. lia.
  Qed.
  Lemma dst_map D t (f : nat -> F -> F) : (forall i, i < t -> poly_le D (f i)) -> dst D (fun x => map (fun i => f i x) (seq 0 t)).
  Proof.
    intros H i. destruct (Nat.ltb_spec i t) as [Hi|Hi].
    - apply (poly_ext D (f i)); [|apply H, Hi]. intros x. rewrite nth_map_seq_d. apply Nat.ltb_lt in Hi. rewrite Hi. reflexivity.
    - apply (poly_ext D (fun _ => f0)); [|apply (poly_const HF)]. intros x. rewrite nth_map_seq_d. apply Nat.ltb_ge in Hi. rewrite Hi. reflexivity.
  Qed.
  Lemma dst_apply D n m M s : dst D s -> dst D (fun x => mat_apply n m M (s x)).
  Proof.
    intros H. unfold mat_apply. apply (dst_map D n (fun i x => sumn m (fun j => fmul (M i j) (nth j (s x) f0)))).
    intros i _. apply (poly_sumn HF). intros k _. apply (poly_scale HF). apply H.
  Qed.
  Lemma dst_weaken D E s : D <= E -> dst D s -> dst E s.
  Proof. intros L H i. apply (poly_weaken D); [exact L|apply H]. Qed.
  Lemma dst_line a b : dst 1 (line a b).
  Proof.
    unfold line. apply dst_map. intros i _. apply (poly_add HF); [apply (poly_const HF)|].
    apply (poly_ext 1 (fun x => fmul (nth i b f0) x)); [intros x; ring|]. apply (poly_scale HF), (poly_id HF). lia.
  Qed.
  Lemma dst_fold {A} (step : list F -> A -> list F) m l :
    (forall D s a, dst D s -> dst (D * m) (fun x => step (s x) a)) ->
    forall D s, dst D s -> dst (D * m ^ length l) (fun x => fold_left step l (s x)).
  Proof.
    intros H. induction l as [|a l IH]; intros D s Hs; cbn [length fold_left].
    - apply (dst_weaken D); [|exact Hs]. rewrite Nat.pow_0_r. lia.
    - apply (dst_weaken (D * m * m ^ length l)); [rewrite Nat.pow_succ_r'; lia|]. apply (IH _ (fun x => step (s x) a)). apply H, Hs.
  Qed.
  Lemma scale_ge D d : 1 <= d -> D <= D * d. Proof. nia. Qed.

  (** ** Poseidon2 *)
  Lemma p2_full_degree t d c D s : dst D s -> dst (D * d) (fun x => p2_ref_full t d c (s x)).
  Proof.
    intros H. unfold p2_ref_full. apply (dst_apply (D * d) t t _ (fun x => map (fun i => fpow (fadd (nth i (s x) f0) (nth i c f0)) d) (seq 0 t))).
    apply (dst_map (D * d) t (fun i x => fpow (fadd (nth i (s x) f0) (nth i c f0)) d)).
    intros i _. apply (poly_pow HF D (fun x => fadd (nth i (s x) f0) (nth i c f0))). apply (poly_add HF); [apply H|apply (poly_const HF)].
  Qed.
  Lemma p2_partial_degree t d diag c D s : 1 <= d -> dst D s -> dst (D * d) (fun x => p2_ref_partial t d diag c (s x)).
  Proof.
    intros Hd H. unfold p2_ref_partial.
    apply (dst_apply (D * d) t t _ (fun x => map (fun i => if i =? 0 then fpow (fadd (nth 0 (s x) f0) (nth 0 c f0)) d else nth i (s x) f0) (seq 0 t))).
    apply (dst_map (D * d) t (fun i x => if i =? 0 then fpow (fadd (nth 0 (s x) f0) (nth 0 c f0)) d else nth i (s x) f0)).
    intros i _. destruct (i =? 0).
    - apply (poly_pow HF D (fun x => fadd (nth 0 (s x) f0) (nth 0 c f0))). apply (poly_add HF); [apply H|apply (poly_const HF)].
    - apply (poly_weaken D); [apply scale_ge, Hd|apply H].
  Qed.
  Lemma half_rounds rf rp d : d ^ (rf / 2) * d ^ rp * d ^ (rf / 2) = d ^ (2 * (rf / 2) + rp).
  Proof. rewrite <- !Nat.pow_add_r. f_equal. lia. Qed.
  Lemma dst_eq D E s : D = E -> dst D s -> dst E s. Proof. intros ->. exact (fun H => H). Qed.

  Theorem p2_degree t d rf rp diag rc s : 1 <= d -> dst 1 s -> dst (d ^ (2 * (rf / 2) + rp)) (fun x => p2_ref t d rf rp diag rc (s x)).
  Proof.
    intros Hd H. unfold p2_ref. cbv zeta. apply (dst_eq (1 * d ^ length (seq 0 (rf / 2)) * d ^ length (seq (rf / 2) rp) * d ^ length (seq (rf / 2 + rp) (rf / 2)))).
    { rewrite !seq_length, Nat.mul_1_l. apply half_rounds. }
    apply (dst_fold (fun s r => p2_ref_full t d (nth r rc []) s) d).
    { intros D s' r Hs'. apply p2_full_degree, Hs'. }
    apply (dst_fold (fun s r => p2_ref_partial t d diag (nth r rc []) s) d).
    { intros D s' r Hs'. apply p2_partial_degree; assumption. }
    apply (dst_fold (fun s r => p2_ref_full t d (nth r rc []) s) d).
    { intros D s' r Hs'. apply p2_full_degree, Hs'. }
    apply dst_apply, H.
  Qed.

  (** ** Poseidon *)
  Lemma ps_full_degree t d M c D s : dst D s -> dst (D * d) (fun x => ps_ref_full t d M c (s x)).
  Proof.
    intros H. unfold ps_ref_full. apply (dst_apply (D * d) t t _ (fun x => map (fun i => fpow (fadd (nth i (s x) f0) (nth i c f0)) d) (seq 0 t))).
    apply (dst_map (D * d) t (fun i x => fpow (fadd (nth i (s x) f0) (nth i c f0)) d)).
    intros i _. apply (poly_pow HF D (fun x => fadd (nth i (s x) f0) (nth i c f0))). apply (poly_add HF); [apply H|apply (poly_const HF)].
  Qed.
  Lemma ps_partial_degree t d M c D s : 1 <= d -> dst D s -> dst (D * d) (fun x => ps_ref_partial t d M c (s x)).
  Proof.
    intros Hd H. unfold ps_ref_partial.
    apply (dst_apply (D * d) t t _ (fun x => map (fun i => let y := fadd (nth i (s x) f0) (nth i c f0) in if i =? 0 then fpow y d else y) (seq 0 t))).
    apply (dst_map (D * d) t (fun i x => let y := fadd (nth i (s x) f0) (nth i c f0) in if i =? 0 then fpow y d else y)).
    intros i _. cbv zeta. assert (A : poly_le D (fun x => fadd (nth i (s x) f0) (nth i c f0))) by (apply (poly_add HF); [apply H|apply (poly_const HF)]).
    destruct (i =? 0); [apply (poly_pow HF D _ d A)|]. apply (poly_weaken D); [apply scale_ge, Hd|exact A].
  Qed.
  Theorem ps_degree t d rf rp M rc s : 1 <= d -> dst 1 s -> dst (d ^ (2 * (rf / 2) + rp)) (fun x => ps_ref t d rf rp M rc (s x)).
  Proof.
    intros Hd H. unfold ps_ref. cbv zeta. apply (dst_eq (1 * d ^ length (seq 0 (rf / 2)) * d ^ length (seq (rf / 2) rp) * d ^ length (seq (rf / 2 + rp) (rf / 2)))).
    { rewrite !seq_length, Nat.mul_1_l. apply half_rounds. }
    apply (dst_fold (fun s r => ps_ref_full t d M (nth r rc []) s) d).
    { intros D s' r Hs'. apply ps_full_degree, Hs'. }
    apply (dst_fold (fun s r => ps_ref_partial t d M (nth r rc []) s) d).
    { intros D s' r Hs'. apply ps_partial_degree; assumption. }
    apply (dst_fold (fun s r => ps_ref_full t d M (nth r rc []) s) d).
    { intros D s' r Hs'. apply ps_full_degree, Hs'. }
    exact H.
  Qed.

  (** ** GMiMC *)
  Lemma gm_round_degree t d c D s : 1 <= d -> dst D s -> dst (D * d) (fun x => gm_ref_round t d c (s x)).
  Proof.
    intros Hd H. unfold gm_ref_round.
    apply (dst_map (D * d) t (fun i x => if i =? 0 then nth 0 (s x) f0 else fadd (nth i (s x) f0) (fpow (fadd (nth 0 (s x) f0) c) d))).
    intros i _. destruct (i =? 0); [apply (poly_weaken D); [apply scale_ge, Hd|apply H]|].
    apply (poly_add HF); [apply (poly_weaken D); [apply scale_ge, Hd|apply H]|].
    apply (poly_pow HF D (fun x => fadd (nth 0 (s x) f0) c)). apply (poly_add HF); [apply H|apply (poly_const HF)].
  Qed.
  Lemma gm_rotate_degree t D s : dst D s -> dst D (fun x => gm_ref_rotate t (s x)).
  Proof.
    intros H. unfold gm_ref_rotate. apply (dst_map D t (fun i x => match i with O => nth (t - 1) (s x) f0 | S j => nth j (s x) f0 end)). intros [|i] _; apply H.
  Qed.
  Theorem gm_degree t d rounds rc s : 1 <= d -> 1 <= rounds -> dst 1 s -> dst (d ^ rounds) (fun x => gm_ref t d rounds rc (s x)).
  Proof.
    intros Hd Hr H. unfold gm_ref. apply (dst_eq (1 * d ^ length (seq 0 (rounds - 1)) * d)).
    { rewrite seq_length, Nat.mul_1_l, Nat.mul_comm, <- Nat.pow_succ_r'. f_equal. lia. }
    apply gm_round_degree; [exact Hd|].
    apply (dst_fold (fun s r => gm_ref_rotate t (gm_ref_round t d (nth r rc f0) s)) d); [|exact H].
    intros D s' r Hs'. apply (gm_rotate_degree t (D * d) (fun x => gm_ref_round t d (nth r rc f0) (s' x))). apply gm_round_degree; assumption.
  Qed.

  (** ** Neptune *)
  Lemma np_pair_degree al be ga D f g : poly_le D f -> poly_le D g ->
    poly_le (D * 4) (fun x => fst (np_pair al be ga (f x) (g x))) /\ poly_le (D * 4) (fun x => snd (np_pair al be ga (f x) (g x))).
  Proof.
    intros Hf Hg. unfold np_pair. cbn [fst snd].
    assert (Z1 : poly_le D (fun x => fsub (f x) (g x))) by (apply (poly_sub HF); assumption).
    assert (Z2 : poly_le (D + D) (fun x => fmul (fsub (f x) (g x)) (fsub (f x) (g x)))) by (apply (poly_mul HF); exact Z1).
    assert (W : poly_le (D + D) (fun x => fadd (fsub (fmul al (fsub (f x) (fmul (fadd f1 f1) (g x)))) (fmul be (fmul (fsub (f x) (g x)) (fsub (f x) (g x))))) ga)).
    { apply (poly_add HF); [|apply (poly_const HF)]. apply (poly_sub HF); [|apply (poly_scale HF), Z2].
      apply (poly_weaken D); [lia|]. apply (poly_scale HF). apply (poly_sub HF); [exact Hf|]. apply (poly_scale HF), Hg. }
    assert (WW := poly_mul HF _ _ _ _ W W).
    split; (apply (poly_add HF); [apply (poly_add HF)|]).
    - apply (poly_weaken D); [lia|]. apply (poly_scale HF). apply (poly_add HF); [apply (poly_scale HF), Hf|exact Hg].
    - apply (poly_weaken (D + D)); [lia|]. apply (poly_scale HF), Z2.
    - apply (poly_weaken (D + D + (D + D))); [lia|]. apply (poly_scale HF), WW.
    - apply (poly_weaken D); [lia|]. apply (poly_scale HF). apply (poly_add HF); [exact Hf|apply (poly_scale HF), Hg].
    - apply (poly_weaken (D + D)); [lia|]. apply (poly_scale HF), Z2.
    - apply (poly_weaken (D + D + (D + D))); [lia|]. apply (poly_scale HF), WW.
  Qed.
  Lemma np_ext_degree t abc ME c D s : dst D s -> dst (D * 4) (fun x => np_ref_ext t abc ME c (s x)).
  Proof.
    intros H. unfold np_ref_ext.
    apply (dst_map (D * 4) t (fun i x => fadd (nth i (mat_apply t t ME (np_ref_sbox t abc (s x))) f0) (nth i c f0))).
    intros i _. apply (poly_add HF); [|apply (poly_const HF)].
    apply (dst_apply (D * 4) t t ME (fun x => np_ref_sbox t abc (s x))). destruct abc as [[al be] ga]. unfold np_ref_sbox.
    apply (dst_map (D * 4) t (fun i x => if Nat.even i then fst (np_pair al be ga (nth i (s x) f0) (nth (S i) (s x) f0))
                  else snd (np_pair al be ga (nth (i - 1)%nat (s x) f0) (nth i (s x) f0)))).
    intros k _. destruct (Nat.even k); apply (np_pair_degree al be ga D (fun x => nth _ (s x) f0) (fun x => nth _ (s x) f0)); apply H.
  Qed.
  Lemma np_int_degree t d MI c D s : 1 <= d -> dst D s -> dst (D * d) (fun x => np_ref_int t d MI c (s x)).
  Proof.
    intros Hd H. unfold np_ref_int.
    apply (dst_map (D * d) t (fun i x => fadd (nth i (mat_apply t t MI (map (fun i => if i =? 0 then fpow (nth 0 (s x) f0) d else nth i (s x) f0) (seq 0 t))) f0) (nth i c f0))).
    intros i _. apply (poly_add HF); [|apply (poly_const HF)].
    apply (dst_apply (D * d) t t MI (fun x => map (fun i => if i =? 0 then fpow (nth 0 (s x) f0) d else nth i (s x) f0) (seq 0 t))).
    apply (dst_map (D * d) t (fun i x => if i =? 0 then fpow (nth 0 (s x) f0) d else nth i (s x) f0)).
    intros k _. destruct (k =? 0); [apply (poly_pow HF D (fun x => nth 0 (s x) f0)), H|]. apply (poly_weaken D); [apply scale_ge, Hd|apply H].
  Qed.
  Theorem np_degree t d rf rp abc ME MI rc s : 1 <= d -> dst 1 s -> dst (4 ^ (2 * (rf / 2)) * d ^ rp) (fun x => np_ref t d rf rp abc ME MI rc (s x)).
  Proof.
    intros Hd H. unfold np_ref. cbv zeta. apply (dst_eq (1 * 4 ^ length (seq 0 (rf / 2)) * d ^ length (seq (rf / 2) rp) * 4 ^ length (seq (rf / 2 + rp) (rf / 2)))).
    { rewrite !seq_length, Nat.mul_1_l. replace (2 * (rf / 2)) with (rf / 2 + rf / 2) by lia. rewrite Nat.pow_add_r. set (u := 4 ^ (rf / 2)). lia. }
    apply (dst_fold (fun s r => np_ref_ext t abc ME (nth r rc []) s) 4).
    { intros D s' r Hs'. apply np_ext_degree, Hs'. }
    apply (dst_fold (fun s r => np_ref_int t d MI (nth r rc []) s) d).
    { intros D s' r Hs'. apply np_int_degree; assumption. }
    apply (dst_fold (fun s r => np_ref_ext t abc ME (nth r rc []) s) 4).
    { intros D s' r Hs'. apply np_ext_degree, Hs'. }
    apply dst_apply, H.
  Qed.
End Degree.
