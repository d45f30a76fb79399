(** * ProofScale: scaling the state and the round constants (C85) *)
From Verif Require Import Base Field Spec FieldPow LinAlg LoopLemmas ModelPoseidon2 ModelPoseidon ModelGmimc
  SpecPoseidon2 SpecPoseidon SpecGmimc SpecScale ProofPoseidon2 ProofMatInverse ProofPoseidon ProofPoseidonFin ProofGmimc.
Local Open Scope nat_scope.

Section S.
  Context {F : Type} {Fo : FOps F} (HF : is_field Fo).
  Add Ring FringSc : (ff_ring _ HF).
  Lemma nth_scale a (x : list F) i : nth i (scale a x) f0 = fmul a (nth i x f0).
  Proof.
    unfold scale. destruct (Nat.lt_ge_cases i (length x)) as [H|H].
    - rewrite (nth_indep _ f0 (fmul a f0)) by (rewrite map_length; exact H). apply map_nth.
    - rewrite !nth_overflow by (rewrite ?map_length; exact H). ring.
  Qed.
  Lemma nth_row a (rc : list (list F)) r : nth r (map (scale a) rc) [] = scale a (nth r rc []).
  Proof. change (@nil F) with (scale a []) at 1. apply map_nth. Qed.
  Lemma mat_apply_scale t M a (x : list F) : mat_apply t t M (scale a x) = scale a (mat_apply t t M x).
  Proof.
    unfold mat_apply, scale at 2. rewrite map_map. apply map_ext. intros i. rewrite <- (sumn_mul_l HF). apply sumn_ext. intros j _.
    rewrite nth_scale. ring.
  Qed.
  Lemma map_scale {A} (f g : A -> F) a l : (forall i, g i = fmul a (f i)) -> map g l = scale a (map f l).
  Proof. intros H. unfold scale. rewrite map_map. apply map_ext. exact H. Qed.
  Lemma fold_scale {B} (f g : list F -> B -> list F) a l : (forall s b, In b l -> g (scale a s) b = scale a (f s b)) ->
    forall s, fold_left g l (scale a s) = scale a (fold_left f l s).
  Proof.
    induction l as [|b l IH]; intros H s; [reflexivity|]. cbn [fold_left]. rewrite H by now left. apply IH. intros; apply H; now right.
  Qed.

  Section Dir.
    Context (a : F) (d : nat) (Ha : fpow a d = a).
    Lemma pow_scale x : fpow (fmul a x) d = fmul a (fpow x d).
    Proof. rewrite (fpow_mul_base HF), Ha. reflexivity. Qed.
    Lemma p2_full_scale t c x : p2_ref_full t d (scale a c) (scale a x) = scale a (p2_ref_full t d c x).
    Proof.
      unfold p2_ref_full. rewrite <- mat_apply_scale. f_equal. apply map_scale. intros i. rewrite !nth_scale, <- pow_scale. f_equal. ring.
    Qed.
    Lemma p2_partial_scale t diag c x : p2_ref_partial t d diag (scale a c) (scale a x) = scale a (p2_ref_partial t d diag c x).
    Proof.
      unfold p2_ref_partial. rewrite <- mat_apply_scale. f_equal. apply map_scale. intros i. rewrite !nth_scale.
      destruct (i =? 0); [|reflexivity]. rewrite <- pow_scale. f_equal. ring.
    Qed.
    Lemma p2_ref_scale t rf rp diag rc x : p2_ref t d rf rp diag (map (scale a) rc) (scale a x) = scale a (p2_ref t d rf rp diag rc x).
    Proof.
      unfold p2_ref. rewrite mat_apply_scale.
      rewrite (fold_scale (fun s r => p2_ref_full t d (nth r rc []) s)) by (intros; rewrite nth_row; apply p2_full_scale).
      rewrite (fold_scale (fun s r => p2_ref_partial t d diag (nth r rc []) s)) by (intros; rewrite nth_row; apply p2_partial_scale).
      rewrite (fold_scale (fun s r => p2_ref_full t d (nth r rc []) s)) by (intros; rewrite nth_row; apply p2_full_scale). reflexivity.
    Qed.
    Lemma ps_full_scale t M c x : ps_ref_full t d M (scale a c) (scale a x) = scale a (ps_ref_full t d M c x).
    Proof.
      unfold ps_ref_full. rewrite <- mat_apply_scale. f_equal. apply map_scale. intros i. rewrite !nth_scale, <- pow_scale. f_equal. ring.
    Qed.
    Lemma ps_partial_scale t M c x : ps_ref_partial t d M (scale a c) (scale a x) = scale a (ps_ref_partial t d M c x).
    Proof.
      unfold ps_ref_partial. rewrite <- mat_apply_scale. f_equal. apply map_scale. intros i. cbv zeta. rewrite !nth_scale.
      destruct (i =? 0); [|ring]. rewrite <- pow_scale. f_equal. ring.
    Qed.
    Lemma ps_ref_scale t rf rp M rc x : ps_ref t d rf rp M (map (scale a) rc) (scale a x) = scale a (ps_ref t d rf rp M rc x).
    Proof.
      unfold ps_ref.
      rewrite (fold_scale (fun s r => ps_ref_full t d M (nth r rc []) s)) by (intros; rewrite nth_row; apply ps_full_scale).
      rewrite (fold_scale (fun s r => ps_ref_partial t d M (nth r rc []) s)) by (intros; rewrite nth_row; apply ps_partial_scale).
      rewrite (fold_scale (fun s r => ps_ref_full t d M (nth r rc []) s)) by (intros; rewrite nth_row; apply ps_full_scale). reflexivity.
    Qed.
    Lemma gm_round_scale t c x : gm_ref_round t d (fmul a c) (scale a x) = scale a (gm_ref_round t d c x).
    Proof.
      unfold gm_ref_round. apply map_scale. intros i. rewrite !nth_scale. destruct (i =? 0); [reflexivity|].
      replace (fadd (fmul a (nth 0 x f0)) (fmul a c)) with (fmul a (fadd (nth 0 x f0) c)) by ring. rewrite pow_scale. ring.
    Qed.
    Lemma gm_rotate_scale t x : gm_ref_rotate t (scale a x) = scale a (gm_ref_rotate t x).
    Proof. unfold gm_ref_rotate. apply map_scale. intros [|i]; apply nth_scale. Qed.
    Lemma gm_ref_scale t rounds rc x : gm_ref t d rounds (scale a rc) (scale a x) = scale a (gm_ref t d rounds rc x).
    Proof.
      unfold gm_ref. rewrite nth_scale.
      rewrite (fold_scale (fun s r => gm_ref_rotate t (gm_ref_round t d (nth r rc f0) s))) by (intros; rewrite nth_scale, gm_round_scale; apply gm_rotate_scale).
      apply gm_round_scale.
    Qed.
  End Dir.

  (** ** one constant equal to one, all others zero, on the zero state *)
  Definition spike (t n : nat) : list (list F) := repeat (repeat f0 t) n ++ [f1 :: repeat f0 (t - 1)].
  Lemma scale_zero a n : scale a (repeat f0 n) = repeat (f0 : F) n.
  Proof. unfold scale. induction n as [|n IH]; [reflexivity|]. cbn [repeat map]. rewrite IH. f_equal. ring. Qed.
  Definition row_of (t : nat) (c : F) : list F := c :: repeat f0 (t - 1).
  Lemma scale_spike a t n : map (scale a) (spike t n) = repeat (repeat f0 t) n ++ [row_of t a].
  Proof.
    unfold spike, row_of. rewrite map_app. f_equal.
    - induction n as [|n IH]; [reflexivity|]. cbn [repeat map]. rewrite IH, scale_zero. reflexivity.
    - cbn [map]. f_equal. change (scale a (f1 :: repeat f0 (t - 1))) with (fmul a f1 :: scale a (repeat f0 (t - 1))). rewrite scale_zero. f_equal. ring.
  Qed.
  Lemma nth_zeros k n : nth k (repeat f0 n) (f0 : F) = f0.
  Proof. apply nth_repeat. Qed.
  Lemma nth_row_of t c k : nth k (row_of t c) f0 = if k =? 0 then c else f0.
  Proof. destruct k; [reflexivity|]. cbn. apply nth_zeros. Qed.
  Lemma pow0 d : 1 <= d -> fpow (f0 : F) d = f0.
  Proof. destruct d; [lia|]. intros _. cbn. ring. Qed.
  Lemma const_map {A} (f : A -> F) l : (forall i, f i = f0) -> map f l = repeat f0 (length l).
  Proof. intros H. induction l as [|b l IH]; [reflexivity|]. cbn. rewrite H, IH. reflexivity. Qed.
  Lemma apply_zeros t M : mat_apply t t M (repeat f0 t) = repeat (f0 : F) t.
  Proof. unfold mat_apply. rewrite const_map, seq_length; [reflexivity|]. intros i. apply sumn_zero; [exact HF|]. intros j _. rewrite nth_zeros. ring. Qed.
  (** column zero of a matrix *)
  Lemma apply_first t M f : 1 <= t -> (forall i, i <> 0 -> f i = f0) -> forall k, k < t ->
    nth k (mat_apply t t M (map f (seq 0 t))) f0 = fmul (M k 0) (f 0).
  Proof.
    intros Ht H k Hk. rewrite mat_apply_nth by exact Hk. rewrite (sumn_single HF t 0).
    - rewrite nth_map_seq by lia. reflexivity.
    - lia.
    - intros j Hj N. rewrite nth_map_seq by exact Hj. rewrite H by exact N. ring.
  Qed.
  Lemma fold_zero {B} (f : list F -> B -> list F) t l : (forall b, In b l -> f (repeat f0 t) b = repeat f0 t) -> fold_left f l (repeat f0 t) = repeat f0 t.
  Proof. induction l as [|b l IH]; intros H; [reflexivity|]. cbn [fold_left]. rewrite H by now left. apply IH. intros; apply H; now right. Qed.
  Lemma nth_table t n c r : r < n -> nth r (repeat (repeat f0 t) n ++ [row_of t c]) [] = repeat f0 t.
  Proof. intros H. rewrite app_nth1 by (rewrite repeat_length; exact H). rewrite (nth_indep _ [] (repeat f0 t)) by (rewrite repeat_length; exact H). apply nth_repeat. Qed.
  Lemma nth_table_last t n c : nth n (repeat (repeat f0 t) n ++ [row_of t c]) [] = row_of t c.
  Proof. rewrite app_nth2 by (rewrite repeat_length; lia). rewrite repeat_length, Nat.sub_diag. reflexivity. Qed.

  Lemma p2_full_zero t d : 1 <= d -> p2_ref_full t d (repeat f0 t) (repeat f0 t) = repeat (f0 : F) t.
  Proof.
    intros Hd. unfold p2_ref_full. rewrite const_map, seq_length; [apply apply_zeros|]. intros i. rewrite !nth_zeros.
    replace (fadd f0 f0) with (f0 : F) by ring. apply pow0, Hd.
  Qed.
  Lemma p2_partial_zero t d diag : 1 <= d -> p2_ref_partial t d diag (repeat f0 t) (repeat f0 t) = repeat (f0 : F) t.
  Proof.
    intros Hd. unfold p2_ref_partial. rewrite const_map, seq_length; [apply apply_zeros|]. intros i. rewrite !nth_zeros.
    destruct (i =? 0); [|reflexivity]. replace (fadd f0 f0) with (f0 : F) by ring. apply pow0, Hd.
  Qed.
  Lemma ps_full_zero t d M : 1 <= d -> ps_ref_full t d M (repeat f0 t) (repeat f0 t) = repeat (f0 : F) t.
  Proof.
    intros Hd. unfold ps_ref_full. rewrite const_map, seq_length; [apply apply_zeros|]. intros i. rewrite !nth_zeros.
    replace (fadd f0 f0) with (f0 : F) by ring. apply pow0, Hd.
  Qed.
  Lemma ps_partial_zero t d M : 1 <= d -> ps_ref_partial t d M (repeat f0 t) (repeat f0 t) = repeat (f0 : F) t.
  Proof.
    intros Hd. unfold ps_ref_partial. rewrite const_map, seq_length; [apply apply_zeros|]. intros i. cbv zeta. rewrite !nth_zeros.
    replace (fadd f0 f0) with (f0 : F) by ring. destruct (i =? 0); [|reflexivity]. apply pow0, Hd.
  Qed.

  (** the last round of three segments *)
  Lemma three_last (full part : list F -> nat -> list F) t h rp n : h + rp + h = S n ->
    (forall r, r < n -> full (repeat f0 t) r = repeat f0 t) -> (forall r, r < n -> part (repeat f0 t) r = repeat f0 t) ->
    fold_left full (seq (h + rp) h) (fold_left part (seq h rp) (fold_left full (seq 0 h) (repeat f0 t))) =
      if h =? 0 then part (repeat f0 t) n else full (repeat f0 t) n.
  Proof.
    intros E Hf Hp. rewrite fold_zero by (intros b Hb; apply in_seq in Hb; apply Hf; destruct h; lia).
    destruct (Nat.eqb_spec h 0) as [->|N].
    - cbn [seq fold_left]. destruct rp as [|rp]; [lia|]. rewrite seq_S, fold_left_app. rewrite fold_zero by (intros b Hb; apply in_seq in Hb; apply Hp; lia).
      cbn [fold_left]. f_equal. lia.
    - rewrite fold_zero by (intros b Hb; apply in_seq in Hb; apply Hp; lia). destruct h as [|h]; [lia|]. rewrite seq_S, fold_left_app.
      rewrite fold_zero by (intros b Hb; apply in_seq in Hb; apply Hf; lia). cbn [fold_left]. f_equal. lia.
  Qed.

  (** a word of the output is a fixed non-zero multiple of c^d *)
  Lemma p2_spike t d rf rp diag n : p2_width t -> 1 <= d -> rf / 2 + rp + rf / 2 = S n ->
    exists k m, k < t /\ m <> f0 /\ forall c, nth k (p2_ref t d rf rp diag (repeat (repeat f0 t) n ++ [row_of t c]) (repeat f0 t)) f0 = fmul m (fpow c d).
  Proof.
    intros Hw Hd E. assert (H1 : (f1 : F) <> f0) by apply (ff_one_neq_zero _ HF).
    assert (Ht : 2 <= t) by (unfold p2_width in Hw; cbn [In] in Hw; lia).
    assert (X : exists k, k < t /\ ext_matrix t k 0 = (f1 : F)).
    { unfold p2_width in Hw. cbn [In] in Hw. unfold ext_matrix, M4, fnat.
      repeat (destruct Hw as [<-|Hw]; [first [exists 1; split; [lia|cbn; ring] | exists 2; split; [lia|cbn; ring] | exists 6; split; [lia|cbn; ring]]|]). destruct Hw. }
    assert (Y : int_matrix t diag 1 0 = (f1 : F)).
    { unfold int_matrix, fnat. destruct (t <? 4); cbn; [ring|reflexivity]. }
    destruct X as [k [Hk X]].
    exists (if rf / 2 =? 0 then 1 else k), f1. split; [destruct (rf / 2 =? 0); lia|]. split; [exact H1|]. intros c.
    unfold p2_ref. cbv zeta. rewrite apply_zeros. set (rc := _ ++ [_]).
    rewrite (three_last (fun s r => p2_ref_full t d (nth r rc []) s) (fun s r => p2_ref_partial t d diag (nth r rc []) s) t (rf / 2) rp n E).
    2: { intros r Hr. unfold rc. rewrite nth_table by exact Hr. apply p2_full_zero, Hd. }
    2: { intros r Hr. unfold rc. rewrite nth_table by exact Hr. apply p2_partial_zero, Hd. }
    unfold rc. rewrite nth_table_last. destruct (rf / 2 =? 0).
    - unfold p2_ref_partial. rewrite apply_first; [|lia| |lia].
      + cbn [Nat.eqb]. rewrite Y, nth_zeros, nth_row_of. cbn [Nat.eqb]. f_equal. f_equal. ring.
      + intros i Hi. rewrite (proj2 (Nat.eqb_neq _ _) Hi). apply nth_zeros.
    - unfold p2_ref_full. rewrite apply_first; [|lia| |exact Hk].
      + rewrite X, nth_zeros, nth_row_of. cbn [Nat.eqb]. f_equal. f_equal. ring.
      + intros i Hi. rewrite nth_zeros, nth_row_of, (proj2 (Nat.eqb_neq _ _) Hi). replace (fadd f0 f0) with (f0 : F) by ring. apply pow0, Hd.
  Qed.

  Lemma mul_cancel (m u v : F) : m <> f0 -> fmul m u = fmul m v -> u = v.
  Proof.
    intros Hm H. assert (E : fmul (finv m) (fmul m u) = fmul (finv m) (fmul m v)) by now rewrite H.
    replace (fmul (finv m) (fmul m u)) with (fmul (fmul (finv m) m) u) in E by ring.
    replace (fmul (finv m) (fmul m v)) with (fmul (fmul (finv m) m) v) in E by ring.
    rewrite (ff_inv _ HF _ Hm) in E. transitivity (fmul f1 u); [ring|]. rewrite E. ring.
  Qed.
  Lemma pow1 d : fpow (f1 : F) d = f1.
  Proof. induction d as [|d IH]; [reflexivity|]. cbn. rewrite IH. ring. Qed.
  Lemma spike_conclude a d k m (f : F -> list F) : m <> f0 -> (forall c, nth k (f c) f0 = fmul m (fpow c d)) -> f a = scale a (f f1) -> fpow a d = a.
  Proof.
    intros Hm H E. apply (mul_cancel m); [exact Hm|]. rewrite <- H, E, nth_scale, H, pow1. ring.
  Qed.
  Lemma spike_is t n : repeat (repeat f0 t) n ++ [row_of t f1] = spike t n.
  Proof. reflexivity. Qed.

  Lemma p2_data_any t rf rp (diag : list F) n c : 1 <= t -> rf / 2 + rp + rf / 2 = S n -> (4 <= t -> 0 < rp -> t <= length diag) ->
    p2_data_ok t rf rp diag (repeat (repeat f0 t) n ++ [row_of t c]).
  Proof.
    intros Ht E Hdiag.
    assert (L : forall r, r < S n -> length (nth r (repeat (repeat (f0 : F) t) n ++ [row_of t c]) []) = t).
    { intros r Hr. destruct (Nat.eq_dec r n) as [->|N]; [rewrite nth_table_last|rewrite nth_table by lia; apply repeat_length].
      unfold row_of. cbn. rewrite repeat_length. lia. }
    repeat split; [intros r Hr; rewrite L by lia; lia| |exact Hdiag]. intros r Hr. rewrite L by lia. lia.
  Qed.
  Lemma scale_data a t rf rp (diag : list F) rc : p2_data_ok t rf rp diag rc -> p2_data_ok t rf rp diag (map (scale a) rc).
  Proof.
    intros [H1 [H2 H3]]. repeat split; [intros r Hr; rewrite nth_row; unfold scale; rewrite map_length; auto|intros r Hr; rewrite nth_row; unfold scale; rewrite map_length; auto|exact H3].
  Qed.
  Lemma scale_length a (x : list F) : length (scale a x) = length x.
  Proof. apply map_length. Qed.
  Lemma degree_pos d : sbox_degree d -> 1 <= d.
  Proof. unfold sbox_degree. cbn [In]. lia. Qed.
  Lemma p2_new_any dbg t d rf rp (diag : list F) mi rc : sbox_degree d -> rf mod 2 = 0 -> (N.of_nat rf + N.of_nat rp < usize_mod)%N ->
    exists P, p2_new dbg t d rf rp diag mi rc = Ok P.
  Proof.
    intros Hd He Hov. unfold p2_new. rewrite He, Nat.eqb_refl.
    assert (((d =? 3) || (d =? 5) || (d =? 7) || (d =? 11)) = true) as ->.
    { unfold sbox_degree in Hd. cbn in Hd. destruct Hd as [<-|[<-|[<-|[]]]]; reflexivity. }
    cbn [assert bind]. rewrite uadd_ok by exact Hov. cbn [bind]. eexists. reflexivity.
  Qed.

  Theorem p2_scaling dbg t d rf rp (diag : list F) mi a :
    p2_width t -> sbox_degree d -> rf mod 2 = 0 -> (N.of_nat rf + N.of_nat rp < usize_mod)%N -> 1 <= rf + rp ->
    (4 <= t -> 0 < rp -> t <= length diag) ->
    ((forall rc P P', p2_data_ok t rf rp diag rc -> p2_new dbg t d rf rp diag mi rc = Ok P -> p2_new dbg t d rf rp diag mi (map (scale a) rc) = Ok P' ->
        scaled_by t a (p2_permutation dbg P) (p2_permutation dbg P'))
     <-> fpow a d = a).
  Proof.
    intros Hw Hd He Hov Hr Hdiag. pose proof (even_half rf He) as Hh. split.
    - intros H. destruct (rf / 2 + rp + rf / 2) as [|n] eqn:E; [lia|].
      assert (Ht : 2 <= t) by (unfold p2_width in Hw; cbn [In] in Hw; lia).
      destruct (p2_new_any dbg t d rf rp diag mi (spike t n) Hd He Hov) as [P HP].
      destruct (p2_new_any dbg t d rf rp diag mi (map (scale a) (spike t n)) Hd He Hov) as [P' HP'].
      assert (D : forall c, p2_data_ok t rf rp diag (repeat (repeat f0 t) n ++ [row_of t c])) by (intros c; apply p2_data_any; [lia|exact E|exact Hdiag]).
      specialize (H _ _ _ (D f1) HP HP' (repeat f0 t) (repeat_length _ _)). destruct H as [y [E1 E2]]. rewrite scale_zero in E2.
      rewrite (p2_permutation_ref HF _ _ _ _ _ _ _ _ _ _ HP Hov Hw Hd (D f1) (repeat_length _ _)) in E1. injection E1 as <-.
      rewrite scale_spike in HP'.
      rewrite (p2_permutation_ref HF _ _ _ _ _ _ _ _ _ _ HP' Hov Hw Hd (D a) (repeat_length _ _)) in E2.
      destruct (p2_spike t d rf rp diag n Hw (degree_pos d Hd) E) as [k [m [_ [Hm Hk]]]].
      apply (spike_conclude a d k m (fun c => p2_ref t d rf rp diag (repeat (repeat f0 t) n ++ [row_of t c]) (repeat f0 t)) Hm Hk).
      injection E2 as E2. exact E2.
    - intros Ha rc P P' D HP HP' x Hx. exists (p2_ref t d rf rp diag rc x). split.
      + apply (p2_permutation_ref HF _ _ _ _ _ _ _ _ _ _ HP Hov Hw Hd D Hx).
      + rewrite (p2_permutation_ref HF _ _ _ _ _ _ _ _ _ _ HP' Hov Hw Hd (scale_data a _ _ _ _ _ D)) by (rewrite scale_length; exact Hx).
        f_equal. apply (p2_ref_scale a d Ha).
  Qed.

  (** ** Poseidon *)
  Lemma ps_spike t d rf rp M n : 1 <= t -> nonsingular t M -> 1 <= d -> rf / 2 + rp + rf / 2 = S n ->
    exists k m, k < t /\ m <> f0 /\ forall c, nth k (ps_ref t d rf rp M (repeat (repeat f0 t) n ++ [row_of t c]) (repeat f0 t)) f0 = fmul m (fpow c d).
  Proof.
    intros Ht HM Hd E.
    assert (X : exists k, k < t /\ M k 0 <> f0).
    { assert (G : forall m, (exists k, k < m /\ M k 0 <> f0) \/ forall k, k < m -> M k 0 = f0).
      { induction m as [|m [[k [H1 H2]]|H]]; [right; intros; lia|left; exists k; split; [lia|exact H2]|].
        destruct (feqb (M m 0) f0) eqn:Q.
        - right. intros k Hk. destruct (Nat.eq_dec k m) as [->|N]; [apply (ff_eqb _ HF), Q|apply H; lia].
        - left. exists m. split; [lia|]. intros C. apply (ff_eqb _ HF) in C. rewrite C in Q. discriminate. }
      destruct (G t) as [X|A]; [exact X|exfalso]. apply (ff_one_neq_zero _ HF).
      apply (HM (fun j => if j =? 0 then f1 else f0)) with (j := 0); [|lia]. intros i Hi. apply (sumn_zero HF). intros j Hj.
      destruct (Nat.eqb_spec j 0) as [->|N]; [rewrite A by exact Hi|]; ring. }
    destruct X as [k [Hk X]]. exists k, (M k 0). split; [exact Hk|]. split; [exact X|]. intros c.
    unfold ps_ref. cbv zeta. set (rc := _ ++ [_]).
    rewrite (three_last (fun s r => ps_ref_full t d M (nth r rc []) s) (fun s r => ps_ref_partial t d M (nth r rc []) s) t (rf / 2) rp n E).
    2: { intros r Hr. unfold rc. rewrite nth_table by exact Hr. apply ps_full_zero, Hd. }
    2: { intros r Hr. unfold rc. rewrite nth_table by exact Hr. apply ps_partial_zero, Hd. }
    unfold rc. rewrite nth_table_last.
    assert (Z : fadd f0 f0 = (f0 : F)) by ring. assert (Z1 : fadd f0 c = (c : F)) by ring.
    destruct (rf / 2 =? 0).
    - unfold ps_ref_partial. cbv zeta. rewrite apply_first; [|lia| |exact Hk].
      + cbn [Nat.eqb]. rewrite nth_zeros, nth_row_of. cbn [Nat.eqb]. rewrite Z1. reflexivity.
      + intros i Hi. rewrite nth_zeros, nth_row_of, (proj2 (Nat.eqb_neq _ _) Hi). exact Z.
    - unfold ps_ref_full. rewrite apply_first; [|lia| |exact Hk].
      + rewrite nth_zeros, nth_row_of. cbn [Nat.eqb]. rewrite Z1. reflexivity.
      + intros i Hi. rewrite nth_zeros, nth_row_of, (proj2 (Nat.eqb_neq _ _) Hi), Z. apply pow0, Hd.
  Qed.

  Theorem ps_scaling dbg t d rf rp (mds : list (list F)) P0 a :
    dims t t mds -> (N.of_nat rf + N.of_nat rp < usize_mod)%N -> ps_new dbg t d rf rp mds (zero_table t (rf + rp)) = Ok P0 ->
    ((forall rc P P', dims (rf + rp) t rc -> ps_new dbg t d rf rp mds rc = Ok P -> ps_new dbg t d rf rp mds (map (scale a) rc) = Ok P' ->
        scaled_by t a (ps_permutation dbg P) (ps_permutation dbg P') /\ scaled_by t a (ps_permutation_not_opt dbg P) (ps_permutation_not_opt dbg P'))
     <-> fpow a d = a).
  Proof.
    intros Hd Hov H0.
    assert (R : forall rc : list (list F), dims (rf + rp) t rc -> ps_rows_ok t rf rp rc /\ forall r, r < rf + rp -> length (nth r rc []) <= t).
    { intros rc [_ D]. split; intros r Hr; rewrite D by exact Hr; lia. }
    assert (D0 : dims (rf + rp) t (zero_table (F := F) t (rf + rp))).
    { unfold zero_table. split; [apply repeat_length|]. intros r Hr. rewrite (nth_indep _ [] (repeat f0 t)) by (rewrite repeat_length; exact Hr).
      rewrite nth_repeat. apply repeat_length. }
    assert (C : exists P, ps_new dbg t d rf rp mds (zero_table t (rf + rp)) = Ok P) by (eexists; exact H0).
    apply (proj1 (ps_new_success HF dbg t d rf rp mds _ Hd (proj1 (R _ D0)) (proj2 (R _ D0)) Hov)) in C.
    assert (Any : forall rc, dims (rf + rp) t rc -> exists P, ps_new dbg t d rf rp mds rc = Ok P).
    { intros rc D. apply (proj1 (ps_new_success HF dbg t d rf rp mds rc Hd (proj1 (R _ D)) (proj2 (R _ D)) Hov)). exact C. }
    destruct C as [Hs [He [Ht [Hp [HL _]]]]]. pose proof (even_half rf He) as Hh.
    assert (SD : forall rc, dims (rf + rp) t rc -> dims (rf + rp) t (map (scale a) rc)).
    { intros rc [L D]. split; [rewrite map_length; exact L|]. intros r Hr. rewrite nth_row. rewrite scale_length. apply D, Hr. }
    assert (Ref : forall rc P x, dims (rf + rp) t rc -> ps_new dbg t d rf rp mds rc = Ok P -> length x = t ->
      ps_permutation dbg P x = Ok (ps_ref t d rf rp (entry mds) rc x) /\ ps_permutation_not_opt dbg P x = Ok (ps_ref t d rf rp (entry mds) rc x)).
    { intros rc P x D HP Hx. apply (ps_permutation_ref HF dbg t d rf rp mds rc P x HP Hov Hd (proj1 (R _ D))). exact Hx. }
    split.
    - intros H. destruct (rf / 2 + rp + rf / 2) as [|n] eqn:E; [lia|].
      assert (D : forall c : F, dims (rf + rp) t (repeat (repeat f0 t) n ++ [row_of t c])).
      { intros c. split; [rewrite app_length, repeat_length; cbn [length]; lia|]. intros r Hr.
        destruct (Nat.eq_dec r n) as [->|N]; [rewrite nth_table_last|rewrite nth_table by lia; apply repeat_length].
        unfold row_of. cbn [length]. rewrite repeat_length. lia. }
      destruct (Any _ (D f1)) as [P HP]. destruct (Any _ (SD _ (D f1))) as [P' HP'].
      destruct (H _ _ _ (D f1) HP HP') as [_ H']. specialize (H' (repeat f0 t) (repeat_length _ _)). destruct H' as [y [E1 E2]]. rewrite scale_zero in E2.
      rewrite (proj2 (Ref _ _ _ (D f1) HP (repeat_length _ _))) in E1. injection E1 as <-.
      change (repeat (repeat f0 t) n ++ [row_of t f1]) with (spike t n) in HP'. rewrite scale_spike in HP'.
      rewrite (proj2 (Ref _ _ _ (D a) HP' (repeat_length _ _))) in E2. injection E2 as E2.
      destruct (ps_spike t d rf rp (entry mds) n ltac:(lia) (HL t ltac:(lia)) (degree_pos d Hs) E) as [k [m [_ [Hm Hk]]]].
      apply (spike_conclude a d k m (fun c => ps_ref t d rf rp (entry mds) (repeat (repeat f0 t) n ++ [row_of t c]) (repeat f0 t)) Hm Hk). exact E2.
    - intros Ha rc P P' D HP HP'. split; intros x Hx; exists (ps_ref t d rf rp (entry mds) rc x).
      all: rewrite <- (ps_ref_scale a d Ha).
      all: split; [apply (Ref _ _ _ D HP Hx)|apply (Ref _ _ _ (SD _ D) HP')]; rewrite scale_length; exact Hx.
  Qed.

  (** ** GMiMC *)
  Lemma gm_rotate_zero t : gm_ref_rotate t (repeat f0 t) = repeat (f0 : F) t.
  Proof. unfold gm_ref_rotate. rewrite const_map, seq_length; [reflexivity|]. intros [|i]; apply nth_zeros. Qed.
  Lemma gm_round_zero t d c : 1 <= d -> c = f0 -> gm_ref_round t d c (repeat f0 t) = repeat (f0 : F) t.
  Proof.
    intros Hd ->. unfold gm_ref_round. rewrite const_map, seq_length; [reflexivity|]. intros i. rewrite !nth_zeros. destruct (i =? 0); [reflexivity|].
    replace (fadd f0 f0) with (f0 : F) by ring. rewrite pow0 by exact Hd. ring.
  Qed.
  Theorem gm_scaling dbg t d rounds a : 2 <= t -> 1 <= rounds -> sbox_degree d ->
    ((forall rng P P', gm_new rng t d rounds = Ok P -> gm_new (fun i => fmul a (rng i)) t d rounds = Ok P' ->
        scaled_by t a (gm_permutation dbg P) (gm_permutation dbg P') /\ scaled_by t a (gm_permutation_not_opt dbg P) (gm_permutation_not_opt dbg P'))
     <-> fpow a d = a).
  Proof.
    intros Ht Hr Hd.
    assert (Hd' : d = 3 \/ d = 5 \/ d = 7) by (unfold sbox_degree in Hd; cbn [In] in Hd; intuition).
    assert (M : forall rng : nat -> F, map (fun i => fmul a (rng i)) (seq 0 rounds) = scale a (map rng (seq 0 rounds))) by (intros; apply map_scale; reflexivity).
    split.
    - intros H. set (rng := fun i => if i =? rounds - 1 then (f1 : F) else f0).
      destruct (proj2 (proj1 (gm_new_outcome rng t d rounds)) Hd') as [P HP].
      destruct (proj2 (proj1 (gm_new_outcome (fun i => fmul a (rng i)) t d rounds)) Hd') as [P' HP'].
      destruct (H rng P P' HP HP') as [_ H']. destruct (H' (repeat f0 t) (repeat_length _ _)) as [y [E1 E2]]. rewrite scale_zero in E2.
      rewrite (proj2 (gm_reference HF dbg rng t d rounds P _ HP (repeat_length _ _) ltac:(lia) Hr)) in E1. injection E1 as <-.
      rewrite (proj2 (gm_reference HF dbg _ t d rounds P' _ HP' (repeat_length _ _) ltac:(lia) Hr)) in E2. injection E2 as E2.
      assert (G : forall rg : nat -> F, (forall i, i < rounds - 1 -> rg i = f0) ->
        nth 1 (gm_ref t d rounds (map rg (seq 0 rounds)) (repeat f0 t)) f0 = fpow (rg (rounds - 1)) d).
      { intros rg Hz. unfold gm_ref. rewrite fold_zero.
        - unfold gm_ref_round. rewrite nth_map_seq by lia. cbn [Nat.eqb]. rewrite !nth_zeros. rewrite nth_map_seq by lia.
          replace (fadd f0 (rg (rounds - 1))) with (rg (rounds - 1)) by ring. ring.
        - intros r Hin. apply in_seq in Hin. rewrite nth_map_seq by lia. rewrite gm_round_zero; [apply gm_rotate_zero|apply degree_pos, Hd|apply Hz; lia]. }
      assert (K := f_equal (fun l => nth 1 l f0) E2). cbv beta in K. rewrite nth_scale in K. rewrite !G in K.
      + unfold rng in K. rewrite Nat.eqb_refl, pow1 in K. replace (fmul a f1) with a in K by ring. exact K.
      + intros i Hi. unfold rng. rewrite (proj2 (Nat.eqb_neq _ _)) by lia. reflexivity.
      + intros i Hi. unfold rng. rewrite (proj2 (Nat.eqb_neq _ _)) by lia. ring.
    - intros Ha rng P P' HP HP'. split; intros x Hx; exists (gm_ref t d rounds (map rng (seq 0 rounds)) x); rewrite <- (gm_ref_scale a d Ha), <- M.
      all: split; [apply (gm_reference HF dbg rng t d rounds P x HP Hx ltac:(lia) Hr)
                  |apply (gm_reference HF dbg _ t d rounds P' (scale a x) HP'); [rewrite scale_length; exact Hx|lia|exact Hr]].
  Qed.

  (** ** which factors *)
  Lemma minus_one_odd d : d mod 2 = 1 -> fpow (minus_one (F := F)) d = minus_one.
  Proof.
    intros H. assert (E : d = 1 + 2 * (d / 2)) by (pose proof (Nat.div_mod d 2); lia). rewrite E. unfold minus_one.
    assert (G : forall k, fpow (fsub f0 f1 : F) (2 * k) = f1).
    { induction k as [|k IH]; [reflexivity|]. replace (2 * S k) with (S (S (2 * k))) by lia. cbn [fpow]. rewrite IH. ring. }
    cbn [fpow Nat.add]. rewrite G. ring.
  Qed.
  Lemma scale_zero_table a t n : map (scale a) (zero_table t n) = zero_table (F := F) t n.
  Proof. unfold zero_table. induction n as [|n IH]; [reflexivity|]. cbn [repeat map]. rewrite IH, scale_zero. reflexivity. Qed.
End S.

Section Corollaries.
  Context {F : Type} {Fo : FOps F} (HF : is_field Fo).
  Add Ring FRScaleC : (ff_ring _ HF).

  Lemma minus_one_degree d : sbox_degree d -> fpow (minus_one (F := F)) d = minus_one.
  Proof. intros H. apply (minus_one_odd HF). unfold sbox_degree in H. cbn [In] in H. destruct H as [<-|[<-|[<-|[]]]]; reflexivity. Qed.

  Lemma product_zero (u v : F) : fmul u v = f0 -> u = f0 \/ v = f0.
  Proof.
    intros H. destruct (feqb u f0) eqn:E; [left; apply (ff_eqb _ HF), E|right].
    apply (mul_cancel HF u); [intros C; apply (ff_eqb _ HF) in C; rewrite C in E; discriminate|]. rewrite H. ring.
  Qed.
  Lemma factors_three (a : F) : fpow a 3 = a <-> a = f0 \/ a = f1 \/ a = minus_one.
  Proof.
    unfold minus_one. cbn [fpow]. split.
    - intros H. assert (E : fmul a (fmul (fsub a f1) (fadd a f1)) = f0).
      { transitivity (fsub (fmul a (fmul a (fmul a f1))) a); [ring|]. rewrite H. ring. }
      destruct (product_zero _ _ E) as [->|E1]; [left; reflexivity|right]. destruct (product_zero _ _ E1) as [E2|E2]; [left|right].
      + transitivity (fadd (fsub a f1) f1); [ring|]. rewrite E2. ring.
      + transitivity (fsub (fadd a f1) f1); [ring|]. rewrite E2. ring.
    - intros [H | [H | H]]; rewrite H; ring.
  Qed.

  Lemma zero_dims t n : dims n t (zero_table (F := F) t n).
  Proof.
    unfold zero_table. split; [apply repeat_length|]. intros r Hr. rewrite (nth_indep _ [] (repeat f0 t)) by (rewrite repeat_length; exact Hr).
    rewrite nth_repeat. apply repeat_length.
  Qed.
  Theorem p2_zero_constants dbg t d rf rp (diag : list F) mi P a :
    p2_new dbg t d rf rp diag mi (zero_table t (rf + rp)) = Ok P ->
    p2_width t -> sbox_degree d -> rf mod 2 = 0 -> (N.of_nat rf + N.of_nat rp < usize_mod)%N ->
    (4 <= t -> 0 < rp -> t <= length diag) -> fpow a d = a -> scaled_by t a (p2_permutation dbg P) (p2_permutation dbg P).
  Proof.
    intros HP Hw Hd He Hov Hdiag Ha. pose proof (even_half rf He) as Hh.
    assert (Ht : 2 <= t) by (unfold p2_width in Hw; cbn [In] in Hw; lia).
    assert (D : p2_data_ok t rf rp diag (zero_table t (rf + rp))).
    { destruct (zero_dims t (rf + rp)) as [_ L]. repeat split; [intros r Hr; rewrite L by lia; lia| |exact Hdiag]. intros r Hr. rewrite L by lia. lia. }
    intros x Hx. exists (p2_ref t d rf rp diag (zero_table t (rf + rp)) x). split.
    - apply (p2_permutation_ref HF _ _ _ _ _ _ _ _ _ _ HP Hov Hw Hd D Hx).
    - rewrite (p2_permutation_ref HF _ _ _ _ _ _ _ _ _ _ HP Hov Hw Hd D) by (rewrite scale_length; exact Hx).
      f_equal. rewrite <- (p2_ref_scale HF a d Ha), (scale_zero_table HF). reflexivity.
  Qed.
  Theorem ps_zero_constants dbg t d rf rp (mds : list (list F)) P a :
    dims t t mds -> (N.of_nat rf + N.of_nat rp < usize_mod)%N -> ps_new dbg t d rf rp mds (zero_table t (rf + rp)) = Ok P ->
    fpow a d = a -> scaled_by t a (ps_permutation dbg P) (ps_permutation dbg P) /\ scaled_by t a (ps_permutation_not_opt dbg P) (ps_permutation_not_opt dbg P).
  Proof.
    intros Hd Hov HP Ha. apply (proj2 (ps_scaling HF dbg t d rf rp mds P a Hd Hov HP) Ha (zero_table t (rf + rp)) P P (zero_dims _ _) HP).
    rewrite (scale_zero_table HF). exact HP.
  Qed.
End Corollaries.
