(** * ProofScriptPerm: the script's own permutations and full matrix *)
From Coq Require Import Znumtheory.
From Verif Require Import Base Field Spec SpecPoseidon SpecPoseidon2 SpecInstances LinAlg LoopLemmas FieldPow Elim ModelInstances ModelPoseidon2 ModelPoseidon
  ModelSubspace ModelGenerate ProofReject.
From Verif Require ProofTrail2 ProofPoseidon2Lin ProofKats ProofInstances ProofMinPoly2.
Local Open Scope nat_scope.

Section Perm.
  Context {F : Type} {Fo : FOps F}.

  Lemma add_constants_ok t (rc s : list F) c : length s = t -> c + t <= length rc ->
    add_constants t rc (s, c) = Ok (map (fun i => fadd (nth i s f0) (nth (c + i) rc f0)) (seq 0 t), c + t).
  Proof.
    intros Ls Hc. unfold add_constants.
    assert (G : forall k, k <= t -> for_range 0 k (fun i '(s, c) => x <- idx s i ;; k <- idx rc c ;; s <- upd s i (fadd x k) ;; Ok (s, c + 1)) (s, c) =
      Ok (map (fun i => if i <? k then fadd (nth i s f0) (nth (c + i) rc f0) else nth i s f0) (seq 0 t), c + k)).
    { induction k as [|k IH]; intros Hk.
      - rewrite for_range_empty by lia. f_equal. f_equal; [|lia]. rewrite <- Ls. apply (list_as_map f0).
      - rewrite for_range_last by lia. rewrite IH by lia. cbn [bind].
        set (s1 := map (fun i => if i <? k then fadd (nth i s f0) (nth (c + i) rc f0) else nth i s f0) (seq 0 t)).
        assert (L1 : length s1 = t) by (unfold s1; rewrite map_length, seq_length; reflexivity).
        rewrite (idx_ok f0) by lia. cbn [bind]. rewrite (idx_ok f0) by lia. cbn [bind]. rewrite upd_ok by lia. cbn [bind].
        f_equal. f_equal; [|lia]. apply (nth_ext _ _ f0 f0); [rewrite set_nth_length, L1 by lia; rewrite map_length, seq_length; reflexivity|].
        rewrite set_nth_length, L1 by lia. intros i Hi. rewrite set_nth_nth by lia. rewrite nth_map_seq by exact Hi. unfold s1.
        rewrite !nth_map_seq by lia. rewrite Nat.ltb_irrefl.
        destruct (Nat.eqb_spec i k) as [->|N].
        + destruct (Nat.ltb_spec k (S k)); [reflexivity|lia].
        + destruct (Nat.ltb_spec i k), (Nat.ltb_spec i (S k)); try lia; reflexivity. }
    rewrite (G t) by lia. f_equal. f_equal. apply map_seq_ext. intros i Hi. destruct (Nat.ltb_spec i t); [reflexivity|lia].
  Qed.

  Lemma script_full_ok t alpha (M : list (list F)) rc s c : length s = t -> c + t <= length rc ->
    script_full t alpha M rc (s, c) =
    Ok (mat_apply t t (entry M) (map (fun i => fpow (fadd (nth i s f0) (nth (c + i) rc f0)) alpha) (seq 0 t)), c + t).
  Proof.
    intros Ls Hc. unfold script_full. rewrite add_constants_ok by assumption. cbn [bind].
    set (s1 := map (fun i => fadd (nth i s f0) (nth (c + i) rc f0)) (seq 0 t)).
    assert (L1 : length s1 = t) by (unfold s1; rewrite map_length, seq_length; reflexivity).
    rewrite <- L1 at 1. rewrite (for_range_map f0 (fun _ x => fpow x alpha)).
    - cbn [bind]. rewrite L1. f_equal. f_equal. f_equal. apply map_seq_ext. intros i Hi. unfold s1. rewrite nth_map_seq by exact Hi. reflexivity.
    - intros i l Hi Ll _. rewrite (idx_ok f0) by lia. reflexivity.
  Qed.
  Lemma script_partial_ok t alpha (M : list (list F)) rc s c : 1 <= t -> length s = t -> c + t <= length rc ->
    script_partial t alpha M rc (s, c) =
    Ok (mat_apply t t (entry M) (map (fun i => let y := fadd (nth i s f0) (nth (c + i) rc f0) in if i =? 0 then fpow y alpha else y) (seq 0 t)), c + t).
  Proof.
    intros Ht Ls Hc. unfold script_partial. rewrite add_constants_ok by assumption. cbn [bind].
    set (s1 := map (fun i => fadd (nth i s f0) (nth (c + i) rc f0)) (seq 0 t)).
    assert (L1 : length s1 = t) by (unfold s1; rewrite map_length, seq_length; reflexivity).
    rewrite (idx_ok f0) by lia. cbn [bind]. rewrite upd_ok by lia. cbn [bind]. f_equal. f_equal. f_equal.
    apply (nth_ext _ _ f0 f0); [rewrite set_nth_length, L1 by lia; rewrite map_length, seq_length; reflexivity|].
    rewrite set_nth_length, L1 by lia. intros i Hi. rewrite set_nth_nth by lia. rewrite nth_map_seq by exact Hi. unfold s1.
    rewrite !nth_map_seq by lia. cbn zeta. destruct (Nat.eqb_spec i 0) as [->|N]; reflexivity.
  Qed.

  (** a concatenation of rows of length t *)
  Lemma concat_nth t (rc : list (list F)) : (forall v, In v rc -> length v = t) -> length (concat rc) = length rc * t /\
    forall r i, r < length rc -> i < t -> nth (r * t + i) (concat rc) f0 = nth i (nth r rc []) f0.
  Proof.
    induction rc as [|v rc IH]; intros H; [split; [reflexivity|intros r i Hr; inversion Hr]|].
    destruct IH as [I1 I2]; [intros w Hw; apply H; right; exact Hw|]. assert (Lv : length v = t) by (apply H; left; reflexivity).
    cbn [concat]. split; [rewrite app_length, I1, Lv; cbn [length]; lia|].
    intros [|r] i Hr Hi.
    - rewrite app_nth1 by lia. reflexivity.
    - rewrite app_nth2 by lia. cbn [nth]. rewrite Lv. replace (S r * t + i - t) with (r * t + i) by lia. apply I2; [cbn in Hr; lia|exact Hi].
  Qed.

  (** the rounds lo .. lo + k - 1, counting constants from lo * t *)
  Lemma script_rounds t (step : list F * nat -> res (list F * nat)) (f : list F -> list F -> list F) (rc : list (list F)) :
    (forall r s, r < length rc -> length s = t -> step (s, r * t) = Ok (f (nth r rc []) s, S r * t) /\ length (f (nth r rc []) s) = t) ->
    forall k lo s, lo + k <= length rc -> length s = t ->
      for_range 0 k (fun _ => step) (s, lo * t) = Ok (fold_left (fun s r => f (nth r rc []) s) (seq lo k) s, (lo + k) * t) /\
      length (fold_left (fun s r => f (nth r rc []) s) (seq lo k) s) = t.
  Proof.
    intros H. induction k as [|k IH]; intros lo s Hk Ls.
    - rewrite for_range_empty by lia. rewrite Nat.add_0_r. split; [reflexivity|exact Ls].
    - rewrite for_range_last by lia. destruct (IH lo s ltac:(lia) Ls) as [E L]. rewrite E. cbn [bind].
      rewrite seq_S, fold_left_app. cbn [fold_left]. destruct (H (lo + k) _ ltac:(lia) L) as [E2 L2].
      rewrite E2. split; [|exact L2]. f_equal. f_equal. f_equal. lia.
  Qed.

  Theorem script_poseidon_ref t alpha rf rp (M rc : list (list F)) x : 1 <= t -> length x = t ->
    (forall v, In v rc -> length v = t) -> length rc = rf / 2 + rp + rf / 2 ->
    script_poseidon t alpha rf rp M (concat rc) x = Ok (ps_ref t alpha rf rp (entry M) rc x).
  Proof.
    intros Ht Lx Hr Lr. destruct (concat_nth t rc Hr) as [CL CN].
    assert (HS1 : forall r s, r < length rc -> length s = t ->
      script_full t alpha M (concat rc) (s, r * t) = Ok (ps_ref_full t alpha (entry M) (nth r rc []) s, S r * t) /\
      length (ps_ref_full t alpha (entry M) (nth r rc []) s) = t).
    { intros r s Hrr Ls. split; [|apply mat_apply_length]. rewrite script_full_ok; [|exact Ls|rewrite CL; nia].
      f_equal. f_equal; [|lia]. unfold ps_ref_full. f_equal. apply map_seq_ext. intros i Hi. rewrite CN by assumption. reflexivity. }
    assert (HS2 : forall r s, r < length rc -> length s = t ->
      script_partial t alpha M (concat rc) (s, r * t) = Ok (ps_ref_partial t alpha (entry M) (nth r rc []) s, S r * t) /\
      length (ps_ref_partial t alpha (entry M) (nth r rc []) s) = t).
    { intros r s Hrr Ls. split; [|apply mat_apply_length]. rewrite script_partial_ok; [|exact Ht|exact Ls|rewrite CL; nia].
      f_equal. f_equal; [|lia]. unfold ps_ref_partial. f_equal. apply map_seq_ext. intros i Hi. rewrite CN by assumption. reflexivity. }
    unfold script_poseidon, ps_ref.
    destruct (script_rounds t _ _ rc HS1 (rf / 2) 0 x ltac:(lia) Lx) as [E1 L1]. change (0 * t) with 0 in E1. rewrite E1. cbn [bind].
    destruct (script_rounds t _ _ rc HS2 rp (0 + rf / 2) _ ltac:(lia) L1) as [E2 L2]. rewrite E2. cbn [bind].
    destruct (script_rounds t _ _ rc HS1 (rf / 2) (0 + rf / 2 + rp) _ ltac:(lia) L2) as [E3 L3]. rewrite E3. reflexivity.
  Qed.

  Theorem script_poseidon2_ref t alpha rf rp (MF MP : list (list F)) diag rc x : 1 <= t -> length x = t ->
    (forall v, In v rc -> length v = t) -> length rc = rf / 2 + rp + rf / 2 ->
    (forall r i, rf / 2 <= r < rf / 2 + rp -> 1 <= i < t -> nth i (nth r rc []) f0 = f0) ->
    is_field Fo -> mat_eq t (entry MF) (ext_matrix t) -> mat_eq t (entry MP) (int_matrix t diag) ->
    script_poseidon2 t alpha rf rp MF MP (concat rc) x = Ok (p2_ref t alpha rf rp diag rc x).
  Proof.
    intros Ht Lx Hr Lr Hz HF EF EP. destruct (concat_nth t rc Hr) as [CL CN].
    assert (HS1 : forall r s, r < length rc -> length s = t ->
      script_full t alpha MF (concat rc) (s, r * t) = Ok (p2_ref_full t alpha (nth r rc []) s, S r * t) /\
      length (p2_ref_full t alpha (nth r rc []) s) = t).
    { intros r s Hrr Ls. split; [|apply mat_apply_length]. rewrite script_full_ok; [|exact Ls|rewrite CL; nia].
      f_equal. f_equal; [|lia]. unfold p2_ref_full. apply mat_apply_ext; [exact EF|]. intros i Hi. rewrite !nth_map_seq by exact Hi.
      rewrite CN by assumption. reflexivity. }
    unfold script_poseidon2, p2_ref.
    rewrite (mat_apply_ext t t (entry MF) (ext_matrix t) x x EF) by reflexivity.
    destruct (script_rounds t _ _ rc HS1 (rf / 2) 0 (mat_apply t t (ext_matrix t) x) ltac:(lia) (mat_apply_length _ _ _ _)) as [E1 L1].
    change (0 * t) with 0 in E1. rewrite E1. cbn [bind].
    set (s1 := fold_left _ _ _) in *.
    assert (E2 : for_range 0 rp (fun _ => script_partial t alpha MP (concat rc)) (s1, (0 + rf / 2) * t) =
      Ok (fold_left (fun s r => p2_ref_partial t alpha diag (nth r rc []) s) (seq (rf / 2) rp) s1, (rf / 2 + rp) * t) /\
      length (fold_left (fun s r => p2_ref_partial t alpha diag (nth r rc []) s) (seq (rf / 2) rp) s1) = t).
    { assert (G : forall k, k <= rp -> for_range 0 k (fun _ => script_partial t alpha MP (concat rc)) (s1, (0 + rf / 2) * t) =
        Ok (fold_left (fun s r => p2_ref_partial t alpha diag (nth r rc []) s) (seq (rf / 2) k) s1, (rf / 2 + k) * t) /\
        length (fold_left (fun s r => p2_ref_partial t alpha diag (nth r rc []) s) (seq (rf / 2) k) s1) = t).
      { induction k as [|k IH]; intros Hk.
        - rewrite for_range_empty by lia. rewrite Nat.add_0_r. split; [reflexivity|exact L1].
        - rewrite for_range_last by lia. destruct (IH ltac:(lia)) as [E L]. rewrite E. cbn [bind].
          rewrite seq_S, fold_left_app. cbn [fold_left]. split; [|apply mat_apply_length].
          rewrite script_partial_ok; [|exact Ht|exact L|rewrite CL; nia]. f_equal. f_equal; [|lia]. unfold p2_ref_partial.
          apply mat_apply_ext; [exact EP|]. intros i Hi. rewrite !nth_map_seq by exact Hi. cbn zeta.
          rewrite !CN by lia. destruct (Nat.eqb_spec i 0) as [->|N]; [reflexivity|].
          rewrite Hz by lia. apply (ProofTrail2.fadd_0_right HF). }
      apply G. lia. }
    destruct E2 as [E2 L2]. rewrite E2. cbn [bind].
    destruct (script_rounds t _ _ rc HS1 (rf / 2) (rf / 2 + rp) _ ltac:(lia) L2) as [E3 L3]. rewrite E3. reflexivity.
  Qed.
End Perm.

(** ** The full matrix *)
Section Full.
  Context {F : Type} {Fo : FOps F} {p : Z} (HP : is_prime_field Fo p).
  Let HF : is_field Fo := prime_field_is_field HP.
  Add Ring FringSP : (ff_ring _ HF).

  Lemma M_small_entry i j : i < 4 -> j < 4 -> entry M_small i j = (M4 i j : F).
  Proof.
    intros Hi Hj. unfold M4. rewrite (ProofPoseidon2Lin.fnat_Z HP).
    destruct i as [|[|[|[|i]]]]; try lia; (destruct j as [|[|[|[|j]]]]; try lia); reflexivity.
  Qed.
  Theorem generate_matrix_full_ok t :
    (t = 2 \/ t = 3 \/ t mod 4 = 0 -> exists M, generate_matrix_full (F := F) t = Ok M /\ dims t t M /\ mat_eq t (entry M) (ext_matrix t)) /\
    (~ (t = 2 \/ t = 3 \/ t mod 4 = 0) -> generate_matrix_full (F := F) t = Panic).
  Proof.
    unfold generate_matrix_full. destruct (Nat.eqb_spec t 2) as [->|N2].
    { split; [intros _|intros H; exfalso; apply H; left; reflexivity]. eexists. split; [reflexivity|]. split.
      - split; [reflexivity|]. intros [|[|i]] Hi; try lia; reflexivity.
      - intros i j Hi Hj. rewrite circulant_entry by (cbn; lia). unfold ext_matrix. cbn [Nat.ltb Nat.leb]. rewrite (ProofPoseidon2Lin.fnat_Z HP).
        destruct i as [|[|i]]; try lia; (destruct j as [|[|j]]; try lia); reflexivity. }
    destruct (Nat.eqb_spec t 3) as [->|N3].
    { split; [intros _|intros H; exfalso; apply H; right; left; reflexivity]. eexists. split; [reflexivity|]. split.
      - split; [reflexivity|]. intros [|[|[|i]]] Hi; try lia; reflexivity.
      - intros i j Hi Hj. rewrite circulant_entry by (cbn; lia). unfold ext_matrix. cbn [Nat.ltb Nat.leb]. rewrite (ProofPoseidon2Lin.fnat_Z HP).
        destruct i as [|[|[|i]]]; try lia; (destruct j as [|[|[|j]]]; try lia); reflexivity. }
    destruct (Nat.eqb_spec t 4) as [->|N4].
    { split; [intros _|intros H; exfalso; apply H; right; right; reflexivity]. eexists. split; [reflexivity|]. split.
      - split; [reflexivity|]. intros [|[|[|[|i]]]] Hi; try lia; reflexivity.
      - intros i j Hi Hj. rewrite M_small_entry by assumption. reflexivity. }
    destruct (Nat.eqb_spec (t mod 4) 0) as [E0|N0].
    - split; [intros _|intros H; exfalso; apply H; right; right; exact E0]. eexists. split; [reflexivity|]. split.
      + split; [rewrite map_length, seq_length; reflexivity|]. intros i Hi. rewrite nth_map_seq by exact Hi. rewrite map_length, seq_length. reflexivity.
      + intros i j Hi Hj. unfold entry at 1. rewrite nth_map_seq by exact Hi. rewrite nth_map_seq by exact Hj. cbn zeta.
        assert (B : forall k, k mod 4 < 4) by (intros k; apply Nat.mod_upper_bound; lia).
        rewrite M_small_entry by apply B. unfold ext_matrix.
        assert (8 <= t). { destruct t as [|[|[|[|[|[|[|[|t]]]]]]]]; cbn in E0, Hi; lia. }
        destruct (Nat.ltb_spec t 4); [lia|]. destruct (Nat.eqb_spec t 4); [lia|].
        destruct (i / 4 =? j / 4); rewrite (ProofPoseidon2Lin.fnat_Z HP); [reflexivity|].
        change (Z.of_nat 1) with 1%Z. rewrite (f_of_Z_1 HP). ring.
    - split; [intros [H|[H|H]]; congruence|]. reflexivity.
  Qed.
End Full.

Lemma half_twice rf : rf mod 2 = 0 -> rf / 2 + rf / 2 = rf.
Proof. intros H. pose proof (Nat.div_mod rf 2 ltac:(lia)). lia. Qed.
Lemma concat_map_map {A B} (f : A -> B) l : map f (concat l) = concat (map (map f) l).
Proof. apply concat_map. Qed.

Theorem p2_script_permutation I : In I p2_instances -> forall F (Fo : FOps F), is_prime_field Fo (qi_p I) -> forall dbg,
  exists Q MF, p2_instance_params dbg I = Ok Q /\ generate_matrix_full (F := F) (qi_t I) = Ok MF /\
  forall x, length x = qi_t I ->
    script_poseidon2 (qi_t I) (qi_d I) (qi_rf I) (qi_rp I) MF (map (map f_of_Z) (qi_mat I)) (map f_of_Z (concat (qi_rc I))) x =
    p2_permutation dbg Q x.
Proof.
  intros HI F Fo HP dbg. destruct (ProofKats.p2_shipped_permutation I HI F Fo HP dbg) as [Q [HQ [_ HR]]].
  destruct (ProofKats.p2_shipped_consistent I HI) as [HC [HA HM]]. specialize (HM F Fo HP).
  pose proof (ga_width _ _ _ _ _ HA) as W. unfold p2_width in W. cbn [In] in W.
  assert (W' : qi_t I = 2 \/ qi_t I = 3 \/ qi_t I mod 4 = 0).
  { repeat (destruct W as [<-|W]; [cbn; lia|]). destruct W. }
  destruct (proj1 (generate_matrix_full_ok HP (qi_t I)) W') as [MF [E1 [_ E2]]].
  exists Q, MF. split; [exact HQ|]. split; [exact E1|]. intros x Lx. rewrite HR by exact Lx. rewrite concat_map_map.
  destruct (pc_rc_shape I HC) as [S1 S2]. pose proof (half_twice _ (ga_even _ _ _ _ _ HA)) as H2.
  apply script_poseidon2_ref; try assumption.
  - pose proof (ProofMinPoly2.p2_width_ge2 I HI). lia.
  - intros v Hv. apply in_map_iff in Hv. destruct Hv as [u [<- Hu]]. rewrite map_length. apply S2, Hu.
  - rewrite map_length, S1. lia.
  - intros r i Hr Hi. change (nth i (nth r (map (map f_of_Z) (qi_rc I)) []) f0) with (entry (map (map (f_of_Z (F := F))) (qi_rc I)) r i).
    rewrite (ProofInstances.map_of_Z_entry _ _ _ _ _ (pc_rc_shape I HC)) by lia. rewrite (pc_partial I HC) by assumption. apply (f_of_Z_0 HP).
  - exact (prime_field_is_field HP).
  - intros i j Hi Hj. symmetry. apply HM; assumption.
Qed.

Theorem ps_script_permutation I : In I ps_instances -> forall F (Fo : FOps F), is_prime_field Fo (si_p I) -> forall dbg,
  exists Q, ps_instance_params dbg I = Ok Q /\
  forall x, length x = si_t I ->
    script_poseidon (si_t I) (si_d I) (si_rf I) (si_rp I) (map (map f_of_Z) (si_mds I)) (map f_of_Z (concat (si_rc I))) x =
    ps_permutation dbg Q x.
Proof.
  intros HI F Fo HP dbg. destruct (ProofKats.ps_shipped_permutation I HI) as [HC HR]. destruct (HR F Fo HP dbg) as [Q [HQ [HX _]]].
  exists Q. split; [exact HQ|]. intros x Lx. rewrite (proj2 (HX x Lx)). rewrite concat_map_map.
  destruct (ProofKats.ps_all I HI) as [P [Hok [Hpr H]]]. destruct (ProofInstances.ps_cert_parts P Hok I H) as [_ [_ [_ [HA _]]]].
  destruct (sc_rc_shape I HC) as [S1 S2]. pose proof (half_twice _ (ga_even _ _ _ _ _ HA)) as H2.
  apply script_poseidon_ref; try assumption.
  - pose proof (ProofTrail2.ps_width_ge2 I HI). lia.
  - intros v Hv. apply in_map_iff in Hv. destruct Hv as [u [<- Hu]]. rewrite map_length. apply S2, Hu.
  - rewrite map_length, S1. lia.
Qed.

Section Move.
  Context {F : Type} {Fo : FOps F} (HF : is_field Fo).
  Add Ring FringMv : (ff_ring _ HF).
  Lemma fsub_move (a b c : F) : a = fadd c b -> fsub a b = c.
  Proof. intros ->. ring. Qed.
End Move.

(** MATRIX_PARTIAL_DIAGONAL_M_1 (line 632) *)
Theorem p2_diagonal_m_1 I : In I p2_instances -> forall F (Fo : FOps F), is_prime_field Fo (qi_p I) ->
  map (fun i => entry (matrix_partial_m_1 (qi_t I) (map (map (f_of_Z (F := F))) (qi_mat I))) i i) (seq 0 (qi_t I)) = map f_of_Z (qi_diag I).
Proof.
  intros HI F Fo HP. destruct (ProofKats.p2_shipped_consistent I HI) as [HC _]. pose proof (pc_diag_length I HC) as LD.
  apply (nth_ext _ _ f0 f0); [rewrite !map_length, seq_length; lia|]. rewrite map_length, seq_length. intros i Hi.
  rewrite nth_map_seq by exact Hi. unfold matrix_partial_m_1. unfold entry at 1. rewrite !nth_map_seq by exact Hi. rewrite Nat.eqb_refl.
  rewrite (ProofInstances.map_of_Z_entry _ _ _ _ _ (pc_mat_shape I HC)) by exact Hi. rewrite (pc_internal I HC) by exact Hi. rewrite Nat.eqb_refl.
  rewrite (nth_map_d _ _ i 0%Z) by lia. apply (fsub_move (prime_field_is_field HP)).
  rewrite <- (f_of_Z_1 HP), <- (f_of_Z_add HP). apply (f_of_Z_eq_iff HP). rewrite Zmod_mod. f_equal. lia.
Qed.
