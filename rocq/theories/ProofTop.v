(** * ProofTop: the coefficients of highest degree of the four permutations along a line *)
From Verif Require Import Base Field Spec FieldPow SpecPoly SpecTop LinAlg PolyFun TopCoef ProofDegree ProofZeroSum SpecPoseidon2 SpecPoseidon SpecGmimc SpecNeptune
  ModelPoseidon2 ModelPoseidon ModelRandom ModelGmimc ModelNeptune ProofPoseidon2 ProofPoseidon ProofPoseidonFin ProofGmimc ProofNeptuneParams ProofNeptuneBij.
Local Open Scope nat_scope.

Section Top.
  Context {F : Type} {Fo : FOps F} (HF : is_field Fo).
  Add Ring FringTp : (ff_ring _ HF).

  (** every word of a state depending on x has the coefficient given by L at x^D *)
  Definition tst (D : nat) (s : F -> list F) (L : list F) : Prop := forall i, poly_top D (nth i L f0) (fun x => nth i (s x) f0).

  Lemma iter_r {A} (f : A -> A) n x : Nat.iter n f (f x) = Nat.iter (S n) f x.
  Proof. induction n as [|n IH]; [reflexivity|]. cbn [Nat.iter nat_rect] in *. change (f (Nat.iter n f (f x)) = f (Nat.iter (S n) f x)). rewrite IH. reflexivity. Qed.

  Lemma tst_map D t (f : nat -> F -> F) (l : nat -> F) : 1 <= D -> (forall i, i < t -> poly_top D (l i) (f i)) ->
    tst D (fun x => map (fun i => f i x) (seq 0 t)) (map l (seq 0 t)).
  Proof.
    intros HD H i. rewrite nth_map_seq_d. destruct (Nat.ltb_spec i t) as [Hi|Hi].
    - apply (top_ext D _ (f i)); [|apply H, Hi]. intros x. rewrite nth_map_seq_d. apply Nat.ltb_lt in Hi. rewrite Hi. reflexivity.
    - apply (top_ext D _ (fun _ => f0)); [|apply (top_const HF), HD]. intros x. rewrite nth_map_seq_d. apply Nat.ltb_ge in Hi. rewrite Hi. reflexivity.
  Qed.
  Lemma tst_apply D n m M s L : 1 <= D -> tst D s L -> tst D (fun x => mat_apply n m M (s x)) (mat_apply n m M L).
  Proof.
    intros HD H. unfold mat_apply. apply (tst_map D n (fun i x => sumn m (fun j => fmul (M i j) (nth j (s x) f0)))); [exact HD|].
    intros i _. apply (top_sumn HF); [exact HD|]. intros k _. apply (top_scale HF). apply H.
  Qed.
  Lemma tst_line a b : tst 1 (line a b) (map (fun j => nth j b f0) (seq 0 (length a))).
  Proof.
    unfold line. apply tst_map; [lia|]. intros i _. apply (top_eq 1 1 (fadd f0 (nth i b f0))); [reflexivity|ring|].
    apply (top_add HF); [apply (top_const HF); lia|]. apply (top_hev HF). exists [f0; nth i b f0]. split; [cbn; lia|]. split; [reflexivity|].
    intros x. cbn [hev]. ring.
  Qed.
  Lemma pow_pos m n : 1 <= m -> 1 <= m ^ n. Proof. intros H. pose proof (Nat.pow_nonzero m n). lia. Qed.
  Lemma tst_fold {A} (step : list F -> A -> list F) (T : list F -> list F) m l : 1 <= m ->
    (forall D s L a, 1 <= D -> tst D s L -> tst (D * m) (fun x => step (s x) a) (T L)) ->
    forall D s L, 1 <= D -> tst D s L -> tst (D * m ^ length l) (fun x => fold_left step l (s x)) (Nat.iter (length l) T L).
  Proof.
    intros Hm H. induction l as [|a l IH]; intros D s L HD Hs; cbn [length fold_left].
    - rewrite Nat.pow_0_r, Nat.mul_1_r. exact Hs.
    - rewrite Nat.pow_succ_r', Nat.mul_assoc, <- iter_r. apply (IH _ (fun x => step (s x) a)); [nia|]. apply H; assumption.
  Qed.
  Lemma tst_eq D E s L L' : D = E -> L = L' -> tst D s L -> tst E s L'. Proof. intros -> ->. exact (fun H => H). Qed.
  Lemma tst_low D s L i : tst D s L -> poly_le D (fun x => nth i (s x) f0).
  Proof. intros H. apply (top_le D (nth i L f0)), H. Qed.

  Lemma tst_add D s L i c : 1 <= D -> tst D s L -> poly_top D (nth i L f0) (fun x => fadd (nth i (s x) f0) c).
  Proof.
    intros HD H. apply (top_eq D D (fadd (nth i L f0) f0)); [reflexivity|ring|]. apply (top_add HF); [apply H|apply (top_const HF), HD].
  Qed.

  (** ** The two kinds of round *)
  Lemma full_top t d M c D s L : 1 <= D -> 1 <= d -> tst D s L ->
    tst (D * d) (fun x => mat_apply t t M (map (fun i => fpow (fadd (nth i (s x) f0) (nth i c f0)) d) (seq 0 t))) (top_full t d M L).
  Proof.
    intros HD Hd H. unfold top_full. apply tst_apply; [nia|].
    apply (tst_map (D * d) t (fun i x => fpow (fadd (nth i (s x) f0) (nth i c f0)) d)); [nia|].
    intros i _. apply (top_pow HF D (nth i L f0) (fun x => fadd (nth i (s x) f0) (nth i c f0))).
    apply tst_add; assumption.
  Qed.
  Lemma part_top t d M D L (v : nat -> F -> F) : 1 <= D -> 2 <= d -> poly_top D (nth 0 L f0) (v 0) -> (forall i, i < t -> poly_le D (v i)) ->
    tst (D * d) (fun x => mat_apply t t M (map (fun i => if i =? 0 then fpow (v 0 x) d else v i x) (seq 0 t))) (top_part t d M L).
  Proof.
    intros HD Hd H0 Hi.
    apply (tst_eq (D * d) (D * d) _ (mat_apply t t M (map (fun i => if i =? 0 then fpow (nth 0 L f0) d else f0) (seq 0 t)))); [reflexivity| |].
    - unfold top_part, mat_apply. cbv zeta. apply map_ext_in. intros i Hin. apply in_seq in Hin. rewrite (sumn_single HF t 0); [|lia|].
      2:{ intros j Hj Nj. rewrite nth_map_seq_d. apply Nat.ltb_lt in Hj. rewrite Hj. destruct j; [lia|]. cbn [Nat.eqb]. ring. }
      rewrite nth_map_seq_d. destruct (Nat.ltb_spec 0 t); [reflexivity|lia].
    - apply tst_apply; [nia|]. apply (tst_map (D * d) t (fun i x => if i =? 0 then fpow (v 0 x) d else v i x)); [nia|].
      intros i Hit. destruct (i =? 0).
      + apply (top_pow HF D _ (v 0)), H0.
      + apply (top_low D); [nia|apply Hi, Hit].
  Qed.

  (** ** Poseidon2 *)
  Lemma p2_full_top t d c D s L : 1 <= D -> 1 <= d -> tst D s L -> tst (D * d) (fun x => p2_ref_full t d c (s x)) (top_full t d (ext_matrix t) L).
  Proof. apply full_top. Qed.
  Lemma p2_partial_top t d diag c D s L : 1 <= D -> 2 <= d -> tst D s L -> tst (D * d) (fun x => p2_ref_partial t d diag c (s x)) (top_part t d (int_matrix t diag) L).
  Proof.
    intros HD Hd H. unfold p2_ref_partial.
    pose proof ((part_top t d (int_matrix t diag) D L (fun i x => if i =? 0 then fadd (nth 0 (s x) f0) (nth 0 c f0) else nth i (s x) f0) HD Hd
      (tst_add D s L 0 (nth 0 c f0) HD H)
      ltac:(intros i _; cbv beta; destruct (i =? 0); [apply (poly_add HF); [apply (tst_low D s L 0 H)|apply (poly_const HF)]|apply (tst_low D s L i H)]))) as P.
    intros i. eapply top_ext; [|apply (P i)]. intros x. cbv beta. f_equal. f_equal. apply map_ext. intros k. destruct k; reflexivity.
  Qed.
  Lemma half_even rf : rf mod 2 = 0 -> rf = rf / 2 + rf / 2.
  Proof. intros H. pose proof (Nat.div_mod rf 2). lia. Qed.
  Lemma rounds_pow d h rp rf : rf = h + h -> 1 * d ^ h * d ^ rp * d ^ h = d ^ (rf + rp).
  Proof. intros ->. rewrite Nat.mul_1_l, <- !Nat.pow_add_r. f_equal. lia. Qed.

  Theorem p2_tops t d rf rp diag rc s L : 2 <= d -> rf mod 2 = 0 -> tst 1 s L ->
    tst (d ^ (rf + rp)) (fun x => p2_ref t d rf rp diag rc (s x)) (p2_top t d rf rp diag L).
  Proof.
    intros Hd He H. unfold p2_ref, p2_top, top_rounds. cbv zeta. pose proof (half_even rf He) as Hh. set (h := rf / 2) in *.
    apply (tst_eq (1 * d ^ length (seq 0 h) * d ^ length (seq h rp) * d ^ length (seq (h + rp) h)) _ _
      (Nat.iter (length (seq (h + rp) h)) (top_full t d (ext_matrix t)) (Nat.iter (length (seq h rp)) (top_part t d (int_matrix t diag))
        (Nat.iter (length (seq 0 h)) (top_full t d (ext_matrix t)) (mat_apply t t (ext_matrix t) L))))).
    { rewrite !seq_length. apply rounds_pow, Hh. } { rewrite !seq_length. reflexivity. }
    assert (P1 : forall n, 1 <= d ^ n) by (intros n; apply pow_pos; lia).
    apply (tst_fold (fun s r => p2_ref_full t d (nth r rc []) s)); [lia| | |].
    { intros D s' L' r HD Hs'. apply p2_full_top; [exact HD|lia|exact Hs']. }
    { pose proof (P1 (length (seq 0 h))). pose proof (P1 (length (seq h rp))). nia. }
    apply (tst_fold (fun s r => p2_ref_partial t d diag (nth r rc []) s)); [lia| | |].
    { intros D s' L' r HD Hs'. apply p2_partial_top; assumption. }
    { pose proof (P1 (length (seq 0 h))). nia. }
    apply (tst_fold (fun s r => p2_ref_full t d (nth r rc []) s)); [lia| |lia|].
    { intros D s' L' r HD Hs'. apply p2_full_top; [exact HD|lia|exact Hs']. }
    apply tst_apply; [lia|exact H].
  Qed.

  (** ** Poseidon *)
  Lemma ps_partial_top t d M c D s L : 1 <= D -> 2 <= d -> tst D s L -> tst (D * d) (fun x => ps_ref_partial t d M c (s x)) (top_part t d M L).
  Proof.
    intros HD Hd H. unfold ps_ref_partial.
    pose proof ((part_top t d M D L (fun i x => fadd (nth i (s x) f0) (nth i c f0)) HD Hd
      (tst_add D s L 0 (nth 0 c f0) HD H)
      ltac:(intros i _; apply (poly_add HF); [apply (tst_low D s L i H)|apply (poly_const HF)]))) as P.
    intros i. eapply top_ext; [|apply (P i)]. intros x. cbv beta zeta. f_equal. f_equal. apply map_ext. intros k. destruct k; reflexivity.
  Qed.
  Theorem ps_tops t d rf rp M rc s L : 2 <= d -> rf mod 2 = 0 -> tst 1 s L ->
    tst (d ^ (rf + rp)) (fun x => ps_ref t d rf rp M rc (s x)) (ps_top t d rf rp M L).
  Proof.
    intros Hd He H. unfold ps_ref, ps_top, top_rounds. cbv zeta. pose proof (half_even rf He) as Hh. set (h := rf / 2) in *.
    apply (tst_eq (1 * d ^ length (seq 0 h) * d ^ length (seq h rp) * d ^ length (seq (h + rp) h)) _ _
      (Nat.iter (length (seq (h + rp) h)) (top_full t d M) (Nat.iter (length (seq h rp)) (top_part t d M) (Nat.iter (length (seq 0 h)) (top_full t d M) L)))).
    { rewrite !seq_length. apply rounds_pow, Hh. } { rewrite !seq_length. reflexivity. }
    assert (P1 : forall n, 1 <= d ^ n) by (intros n; apply pow_pos; lia).
    apply (tst_fold (fun s r => ps_ref_full t d M (nth r rc []) s)); [lia| | |].
    { intros D s' L' r HD Hs'. apply full_top; [exact HD|lia|exact Hs']. }
    { pose proof (P1 (length (seq 0 h))). pose proof (P1 (length (seq h rp))). nia. }
    apply (tst_fold (fun s r => ps_ref_partial t d M (nth r rc []) s)); [lia| | |].
    { intros D s' L' r HD Hs'. apply ps_partial_top; assumption. }
    { pose proof (P1 (length (seq 0 h))). nia. }
    apply (tst_fold (fun s r => ps_ref_full t d M (nth r rc []) s)); [lia| |lia|exact H].
    intros D s' L' r HD Hs'. apply full_top; [exact HD|lia|exact Hs'].
  Qed.

  (** ** GMiMC *)
  Lemma gm_round_top t d c D s L : 1 <= D -> 2 <= d -> tst D s L ->
    tst (D * d) (fun x => gm_ref_round t d c (s x)) (map (fun i => if i =? 0 then f0 else fpow (nth 0 L f0) d) (seq 0 t)).
  Proof.
    intros HD Hd H. unfold gm_ref_round.
    apply (tst_map (D * d) t (fun i x => if i =? 0 then nth 0 (s x) f0 else fadd (nth i (s x) f0) (fpow (fadd (nth 0 (s x) f0) c) d))); [nia|].
    intros i _. destruct (i =? 0); [apply (top_low D); [nia|apply (tst_low D s L 0 H)]|].
    apply (top_eq (D * d) (D * d) (fadd f0 (fpow (nth 0 L f0) d))); [reflexivity|ring|]. apply (top_add HF).
    - apply (top_low D); [nia|apply (tst_low D s L i H)].
    - apply (top_pow HF D _ (fun x => fadd (nth 0 (s x) f0) c)). apply tst_add; assumption.
  Qed.
  Lemma gm_rotate_top t D s L : 1 <= D -> tst D s L ->
    tst D (fun x => gm_ref_rotate t (s x)) (map (fun i => match i with O => nth (t - 1) L f0 | S j => nth j L f0 end) (seq 0 t)).
  Proof.
    intros HD H. unfold gm_ref_rotate. apply (tst_map D t (fun i x => match i with O => nth (t - 1) (s x) f0 | S j => nth j (s x) f0 end)); [exact HD|]. intros [|i] _; apply H.
  Qed.
  (** one round and a rotation *)
  Definition gm_step (t d : nat) (L : list F) : list F :=
    let m := map (fun i => if i =? 0 then f0 else fpow (nth 0 L f0) d) (seq 0 t) in
    map (fun i => match i with O => nth (t - 1) m f0 | S j => nth j m f0 end) (seq 0 t).
  Lemma gm_step_0 t d L : 2 <= t -> nth 0 (gm_step t d L) f0 = fpow (nth 0 L f0) d.
  Proof.
    intros Ht. unfold gm_step. rewrite nth_map_seq_d. destruct (Nat.ltb_spec 0 t); [|lia]. rewrite nth_map_seq_d.
    destruct (Nat.ltb_spec (t - 1) t); [|lia]. destruct (Nat.eqb_spec (t - 1) 0); [lia|reflexivity].
  Qed.
  Lemma gm_steps_0 t d n L : 2 <= t -> nth 0 (Nat.iter n (gm_step t d) L) f0 = fpow (nth 0 L f0) (d ^ n).
  Proof.
    intros Ht. induction n as [|n IH]; [cbn [Nat.iter nat_rect Nat.pow fpow]; ring|].
    change (Nat.iter (S n) (gm_step t d) L) with (gm_step t d (Nat.iter n (gm_step t d) L)).
    rewrite gm_step_0, IH, <- (fpow_mul HF) by exact Ht. f_equal. rewrite Nat.pow_succ_r'. lia.
  Qed.
  Theorem gm_tops t d rounds rc s L : 2 <= t -> 2 <= d -> 1 <= rounds -> tst 1 s L ->
    tst (d ^ rounds) (fun x => gm_ref t d rounds rc (s x)) (gm_top t d rounds L).
  Proof.
    intros Ht Hd Hr H. unfold gm_ref, gm_top. destruct rounds as [|n]; [lia|]. replace (S n - 1) with n by lia.
    apply (tst_eq (1 * d ^ length (seq 0 n) * d) _ _
      (map (fun i => if i =? 0 then f0 else fpow (nth 0 (Nat.iter (length (seq 0 n)) (gm_step t d) L) f0) d) (seq 0 t))).
    { rewrite seq_length, Nat.pow_succ_r'. lia. }
    { apply map_ext. intros i. destruct (i =? 0); [reflexivity|]. rewrite gm_steps_0, <- (fpow_mul HF), seq_length by exact Ht. f_equal. rewrite Nat.pow_succ_r'. lia. }
    assert (P1 : forall n, 1 <= d ^ n) by (intros k; apply pow_pos; lia).
    apply gm_round_top; [pose proof (P1 (length (seq 0 n))); lia|exact Hd|].
    apply (tst_fold (fun s r => gm_ref_rotate t (gm_ref_round t d (nth r rc f0) s))); [lia| |lia|exact H].
    intros D s' L' r HD Hs'. apply (gm_rotate_top t (D * d) (fun x => gm_ref_round t d (nth r rc f0) (s' x))); [nia|]. apply gm_round_top; assumption.
  Qed.

  (** ** Neptune *)
  Lemma np_pair_top ga D f g l m : 1 <= D -> poly_top D l f -> poly_top D m g ->
    poly_top (D * 4) (fpow (fsub l m) 4) (fun x => fst (np_pair f1 f1 ga (f x) (g x))) /\ poly_top (D * 4) (fpow (fsub l m) 4) (fun x => snd (np_pair f1 f1 ga (f x) (g x))).
  Proof.
    intros HD Hf Hg. unfold np_pair. cbn [fst snd].
    pose proof (top_le D l f Hf) as Lf. pose proof (top_le D m g Hg) as Lg.
    assert (Z1 : poly_top D (fsub l m) (fun x => fsub (f x) (g x))) by (apply (top_sub HF); assumption).
    assert (Z2 := top_mul HF _ _ _ _ _ _ Z1 Z1). cbv beta in Z2.
    assert (W : poly_top (D + D) (fsub f0 (fmul (fsub l m) (fsub l m))) (fun x => fadd (fsub (fmul f1 (fsub (f x) (fmul (fadd f1 f1) (g x)))) (fmul f1 (fmul (fsub (f x) (g x)) (fsub (f x) (g x))))) ga)).
    { apply (top_eq (D + D) (D + D) (fadd (fsub f0 (fmul f1 (fmul (fsub l m) (fsub l m)))) f0)); [reflexivity|ring|].
      apply (top_add HF); [|apply (top_const HF); lia]. apply (top_sub HF); [|apply (top_scale HF), Z2].
      apply (top_low D); [lia|]. apply (poly_scale HF). apply (poly_sub HF); [exact Lf|]. apply (poly_scale HF), Lg. }
    assert (WW := top_mul HF _ _ _ _ _ _ W W). cbv beta in WW. apply (top_scale HF _ f1) in WW. pose proof (top_le _ _ _ Z2) as L2.
    split; (apply (top_eq (D + D + (D + D)) _ (fadd (fadd f0 f0) (fmul f1 (fmul (fsub f0 (fmul (fsub l m) (fsub l m))) (fsub f0 (fmul (fsub l m) (fsub l m))))))); [lia|cbn [fpow]; ring|]);
      (apply (top_add HF); [apply (top_add HF)|exact WW]).
    - apply (top_low D); [lia|]. apply (poly_scale HF). apply (poly_add HF); [apply (poly_scale HF), Lf|exact Lg].
    - apply (top_low (D + D)); [lia|]. apply (poly_scale HF), L2.
    - apply (top_low D); [lia|]. apply (poly_scale HF). apply (poly_add HF); [exact Lf|apply (poly_scale HF), Lg].
    - apply (top_low (D + D)); [lia|]. apply (poly_scale HF), L2.
  Qed.
  Lemma even_pair i : Nat.even i = true -> 2 * (i / 2) = i /\ 2 * (i / 2) + 1 = S i.
  Proof. intros E. apply Nat.even_spec in E. destruct E as [k ->]. rewrite (Nat.mul_comm 2 k), Nat.div_mul by lia. lia. Qed.
  Lemma odd_pair i : Nat.even i = false -> 2 * (i / 2) = i - 1 /\ 2 * (i / 2) + 1 = i.
  Proof.
    intros E. assert (O : Nat.odd i = true) by (unfold Nat.odd; rewrite E; reflexivity). apply Nat.odd_spec in O. destruct O as [k ->].
    replace ((2 * k + 1) / 2) with k; [lia|]. rewrite (Nat.add_comm (2 * k) 1), (Nat.mul_comm 2 k), Nat.div_add by lia. reflexivity.
  Qed.
  Lemma np_ext_top t ga ME c D s L : 1 <= D -> tst D s L -> tst (D * 4) (fun x => np_ref_ext t (f1, f1, ga) ME c (s x)) (top_pairs t ME L).
  Proof.
    intros HD H. unfold np_ref_ext, top_pairs.
    assert (S : tst (D * 4) (fun x => np_ref_sbox t (f1, f1, ga) (s x))
      (map (fun i => fpow (fsub (nth (2 * (i / 2)) L f0) (nth (2 * (i / 2) + 1) L f0)) 4) (seq 0 t))).
    { unfold np_ref_sbox. apply (tst_map (D * 4) t (fun i x => if Nat.even i then fst (np_pair f1 f1 ga (nth i (s x) f0) (nth (S i) (s x) f0))
                  else snd (np_pair f1 f1 ga (nth (i - 1)%nat (s x) f0) (nth i (s x) f0)))); [lia|].
      intros k _. destruct (Nat.even k) eqn:E.
      - destruct (even_pair k E) as [E1 E2]. rewrite E2, E1. apply (np_pair_top ga D (fun x => nth k (s x) f0) (fun x => nth (S k) (s x) f0)); [exact HD|apply H|apply H].
      - destruct (odd_pair k E) as [E1 E2]. rewrite E2, E1. apply (np_pair_top ga D (fun x => nth (k - 1) (s x) f0) (fun x => nth k (s x) f0)); [exact HD|apply H|apply H]. }
    pose proof (tst_apply (D * 4) t t ME _ _ ltac:(lia) S) as A.
    apply (tst_eq (D * 4) (D * 4) _ (map (fun i => nth i (mat_apply t t ME (map (fun i => fpow (fsub (nth (2 * (i / 2)) L f0) (nth (2 * (i / 2) + 1) L f0)) 4) (seq 0 t))) f0) (seq 0 t))); [reflexivity| |].
    { unfold mat_apply. apply map_ext_in. intros i Hi. apply in_seq in Hi. rewrite nth_map_seq_d. destruct (Nat.ltb_spec i t); [reflexivity|lia]. }
    apply (tst_map (D * 4) t (fun i x => fadd (nth i (mat_apply t t ME (np_ref_sbox t (f1, f1, ga) (s x))) f0) (nth i c f0))); [lia|].
    intros i _. apply (tst_add (D * 4) (fun x => mat_apply t t ME (np_ref_sbox t (f1, f1, ga) (s x)))); [lia|exact A].
  Qed.
  Lemma np_int_top t d MI c D s L : 1 <= D -> 2 <= d -> tst D s L -> tst (D * d) (fun x => np_ref_int t d MI c (s x)) (top_part t d MI L).
  Proof.
    intros HD Hd H. unfold np_ref_int.
    pose proof (part_top t d MI D L (fun i x => nth i (s x) f0) HD Hd (H 0) (fun i _ => tst_low D s L i H)) as P.
    apply (tst_eq (D * d) (D * d) _ (map (fun i => nth i (top_part t d MI L) f0) (seq 0 t))); [reflexivity| |].
    { unfold top_part. cbv zeta. apply map_ext_in. intros i Hi. apply in_seq in Hi. rewrite nth_map_seq_d. destruct (Nat.ltb_spec i t); [reflexivity|lia]. }
    apply (tst_map (D * d) t (fun i x => fadd (nth i (mat_apply t t MI (map (fun i => if i =? 0 then fpow (nth 0 (s x) f0) d else nth i (s x) f0) (seq 0 t))) f0) (nth i c f0))); [nia|].
    intros i _. apply (tst_add (D * d) (fun x => mat_apply t t MI (map (fun i => if i =? 0 then fpow (nth 0 (s x) f0) d else nth i (s x) f0) (seq 0 t)))); [nia|exact P].
  Qed.
  Theorem np_tops t d rf rp ga ME MI rc s L : 2 <= d -> rf mod 2 = 0 -> tst 1 s L ->
    tst (4 ^ rf * d ^ rp) (fun x => np_ref t d rf rp (f1, f1, ga) ME MI rc (s x)) (np_top t d rf rp ME MI L).
  Proof.
    intros Hd He H. unfold np_ref, np_top, top_rounds. cbv zeta. pose proof (half_even rf He) as Hh. set (h := rf / 2) in *.
    apply (tst_eq (1 * 4 ^ length (seq 0 h) * d ^ length (seq h rp) * 4 ^ length (seq (h + rp) h)) _ _
      (Nat.iter (length (seq (h + rp) h)) (top_pairs t ME) (Nat.iter (length (seq h rp)) (top_part t d MI)
        (Nat.iter (length (seq 0 h)) (top_pairs t ME) (mat_apply t t ME L))))).
    { rewrite !seq_length, Hh, Nat.pow_add_r. ring. } { rewrite !seq_length. reflexivity. }
    assert (P1 : forall n, 1 <= d ^ n) by (intros n; apply pow_pos; lia). assert (P4 : forall n, 1 <= 4 ^ n) by (intros n; apply pow_pos; lia).
    apply (tst_fold (fun s r => np_ref_ext t (f1, f1, ga) ME (nth r rc []) s)); [lia| | |].
    { intros D s' L' r HD Hs'. apply np_ext_top; assumption. }
    { pose proof (P4 (length (seq 0 h))). pose proof (P1 (length (seq h rp))). nia. }
    apply (tst_fold (fun s r => np_ref_int t d MI (nth r rc []) s)); [lia| | |].
    { intros D s' L' r HD Hs'. apply np_int_top; assumption. }
    { pose proof (P4 (length (seq 0 h))). nia. }
    apply (tst_fold (fun s r => np_ref_ext t (f1, f1, ga) ME (nth r rc []) s)); [lia| |lia|].
    { intros D s' L' r HD Hs'. apply np_ext_top; assumption. }
    apply tst_apply; [lia|exact H].
  Qed.
End Top.
