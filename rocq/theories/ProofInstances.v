(** * ProofInstances: computed checks of the shipped constants and what they imply *)
From Coq Require Import Uint63.
From Verif Require Import Base Field Spec FieldPow LinAlg Fp Transfer Elim ModelFields ModelHex SpecHex ModelUtils
  ModelPoseidon2 ModelPoseidon SpecPoseidon2 SpecPoseidon ModelInstances SpecInstances.
From Verif Require ProofHex ProofPoseidon2 ProofPoseidon2Bij ProofPoseidon ProofPoseidonFin.

(** ** Boolean checks on the integers *)
Definition canon_vec_b (p : Z) (v : list Z) : bool := forallb (fun z => ((0 <=? z) && (z <? p))%Z) v.
Definition canon_mat_b (p : Z) (m : list (list Z)) : bool := forallb (canon_vec_b p) m.
Definition shape_b (r c : nat) (m : list (list Z)) : bool := (length m =? r) && forallb (fun v => length v =? c) m.
Definition args_b (p : Z) (t d rf rp : nat) : bool :=
  existsb (Nat.eqb d) [3; 5; 7] && (rf mod 2 =? 0) && existsb (Nat.eqb t) [2; 3; 4; 8; 12; 16; 20; 24] &&
  (1 <=? rp) && (Z.gcd (Z.of_nat d) (p - 1) =? 1)%Z && (N.of_nat rf + N.of_nat rp <? usize_mod)%N.

Lemma canon_vec_ok p v : canon_vec_b p v = true -> canonical_vec p v.
Proof.
  intros H z Hz. unfold canon_vec_b in H. rewrite forallb_forall in H. specialize (H z Hz).
  apply andb_true_iff in H. destruct H as [A B]. apply Z.leb_le in A. apply Z.ltb_lt in B. lia.
Qed.
Lemma canon_mat_ok p m : canon_mat_b p m = true -> canonical_mat p m.
Proof. intros H v Hv. apply canon_vec_ok. unfold canon_mat_b in H. rewrite forallb_forall in H. apply H, Hv. Qed.
Lemma shape_ok r c m : shape_b r c m = true -> shape r c m.
Proof.
  intros H. apply andb_true_iff in H. destruct H as [A B]. apply Nat.eqb_eq in A. split; [exact A|].
  intros v Hv. rewrite forallb_forall in B. apply Nat.eqb_eq. apply B, Hv.
Qed.
Lemma existsb_In n l : existsb (Nat.eqb n) l = true -> In n l.
Proof. intros H. apply existsb_exists in H. destruct H as [x [Hx E]]. apply Nat.eqb_eq in E. subst. exact Hx. Qed.
Lemma args_ok p t d rf rp : args_b p t d rf rp = true -> good_arguments p t d rf rp.
Proof.
  unfold args_b. intros H. rewrite ?andb_true_iff in H; repeat match type of H with _ /\ _ => destruct H as [H ?Hb] end.
  constructor.
  - apply existsb_In. exact H.
  - apply Nat.eqb_eq. assumption.
  - apply existsb_In. assumption.
  - apply Nat.leb_le. assumption.
  - apply Z.eqb_eq. assumption.
  - apply N.ltb_lt. assumption.
Qed.

Lemma shape_nth r c m i : shape r c m -> i < r -> length (nth i m []) = c.
Proof. intros [L R] Hi. apply R. apply nth_In. lia. Qed.

(** ** Literals *)
Section Literals.
  Context {F : Type} {Fo : FOps F}.
  Lemma vec_literal_ok n p v : (p <= 16 ^ Z.of_nat (2 * n))%Z -> canonical_vec p v ->
    vec_literal n v = Ok (map (f_of_Z (F := F)) v).
  Proof.
    intros Hp Hv. apply mapM_ok. intros z Hz. apply ProofHex.from_hex_round_trip; [left; reflexivity|].
    specialize (Hv z Hz). lia.
  Qed.
  Lemma mat_literal_ok n p m : (p <= 16 ^ Z.of_nat (2 * n))%Z -> canonical_mat p m ->
    mat_literal n m = Ok (map (map (f_of_Z (F := F))) m).
  Proof. intros Hp Hm. apply mapM_ok. intros v Hv. apply (vec_literal_ok n p); [exact Hp|apply Hm, Hv]. Qed.

  Lemma map_of_Z_dims r c m : shape r c m -> dims r c (map (map (f_of_Z (F := F))) m).
  Proof.
    intros H. destruct H as [L R] eqn:E. split; [rewrite map_length; exact L|]. intros i Hi.
    rewrite (nth_map_d _ _ i []) by lia. rewrite map_length. apply (shape_nth r c m i H Hi).
  Qed.
  Lemma map_of_Z_entry r c m i j : shape r c m -> i < r -> j < c ->
    entry (map (map (f_of_Z (F := F))) m) i j = f_of_Z (zentry m i j).
  Proof.
    intros H Hi Hj. unfold entry, zentry. pose proof (proj1 H). rewrite (nth_map_d _ _ i []) by lia.
    apply nth_map_d. rewrite (shape_nth r c m i H Hi). exact Hj.
  Qed.
  Lemma map_of_Z_row r c m i : shape r c m -> i < r -> length (nth i (map (map (f_of_Z (F := F))) m) []) = c.
  Proof. intros H Hi. apply (map_of_Z_dims r c m H). exact Hi. Qed.
End Literals.

(** ** Poseidon2 *)
Definition internal_b (p : Z) (t : nat) (diag : list Z) (m : list (list Z)) : bool :=
  forallb (fun i => forallb (fun j =>
    if i =? j then ((zentry m i j =? 1 + nth i diag 0) || (zentry m i j + p =? 1 + nth i diag 0))%Z
    else (zentry m i j =? 1)%Z) (seq 0 t)) (seq 0 t).
Definition eq_list_b (a b : list Z) : bool := (length a =? length b) && forallb (fun '(x, y) => (x =? y)%Z) (combine a b).
Definition p2_consistent_b (I : p2_instance) : bool :=
  shape_b (qi_rf I + qi_rp I) (qi_t I) (qi_rc I) && shape_b (qi_t I) (qi_t I) (qi_mat I) &&
  (length (qi_diag I) =? qi_t I) &&
  canon_mat_b (qi_p I) (qi_rc I) && canon_mat_b (qi_p I) (qi_mat I) && canon_vec_b (qi_p I) (qi_diag I) &&
  internal_b (qi_p I) (qi_t I) (qi_diag I) (qi_mat I) &&
  (negb (qi_t I =? 2) || eq_list_b (qi_diag I) [1; 2]%Z) && (negb (qi_t I =? 3) || eq_list_b (qi_diag I) [1; 1; 2]%Z) &&
  forallb (fun r => forallb (fun z => (z =? 0)%Z) (skipn 1 (nth r (qi_rc I) []))) (seq (qi_rf I / 2) (qi_rp I)).

Lemma eq_list_ok a b : eq_list_b a b = true -> a = b.
Proof.
  unfold eq_list_b. intros H. apply andb_true_iff in H. destruct H as [L H]. apply Nat.eqb_eq in L.
  revert b L H; induction a as [|x a IH]; intros [|y b] L H; cbn in *; try discriminate; [reflexivity|].
  apply andb_true_iff in H. destruct H as [E H]. apply Z.eqb_eq in E. f_equal; [exact E|]. apply IH; [lia|exact H].
Qed.

Lemma internal_ok p t diag m : (1 < p)%Z -> shape t t m -> canonical_mat p m -> length diag = t -> canonical_vec p diag ->
  internal_b p t diag m = true ->
  forall i j, i < t -> j < t -> zentry m i j = ((if (i =? j)%nat then 1 + nth i diag 0 else 1) mod p)%Z.
Proof.
  intros Hp HS HC HL HD H i j Hi Hj. unfold internal_b in H. rewrite forallb_forall in H.
  specialize (H i ltac:(apply in_seq; lia)). rewrite forallb_forall in H. specialize (H j ltac:(apply in_seq; lia)).
  destruct (i =? j).
  - assert (Hr : (0 <= zentry m i j < p)%Z).
    { apply (HC (nth i m [])); [apply nth_In; destruct HS; lia|]. apply nth_In. rewrite (shape_nth t t m i HS Hi). exact Hj. }
    apply orb_true_iff in H. destruct H as [H|H]; apply Z.eqb_eq in H.
    + rewrite <- H. symmetry. apply Z.mod_small. exact Hr.
    + rewrite <- H. replace (zentry m i j + p)%Z with (zentry m i j + 1 * p)%Z by ring. rewrite Z_mod_plus_full.
      symmetry. apply Z.mod_small. exact Hr.
  - apply Z.eqb_eq in H. rewrite H. symmetry. apply Z.mod_small. lia.
Qed.

Lemma p2_consistent_ok I : (1 < qi_p I)%Z -> p2_consistent_b I = true -> p2_consistent I.
Proof.
  intros Hp. unfold p2_consistent_b. intros H. rewrite ?andb_true_iff in H; repeat match type of H with _ /\ _ => destruct H as [H ?Hb] end.
  apply shape_ok in H, Hb7. apply Nat.eqb_eq in Hb6. apply canon_mat_ok in Hb5, Hb4. apply canon_vec_ok in Hb3.
  constructor; try assumption.
  - apply internal_ok; assumption.
  - intros E. rewrite E in Hb1. apply eq_list_ok. exact Hb1.
  - intros E. rewrite E in Hb0. apply eq_list_ok. exact Hb0.
  - intros r i Hr Hi. rewrite forallb_forall in Hb. specialize (Hb r ltac:(apply in_seq; lia)).
    rewrite forallb_forall in Hb. unfold zentry. apply Z.eqb_eq. apply Hb.
    pose proof (shape_nth _ _ _ r H ltac:(pose proof (Nat.div_le_mono (qi_rf I) (qi_rf I) 2); pose proof (Nat.div_le_upper_bound (qi_rf I) 2 (qi_rf I)); lia)) as L.
    destruct (nth r (qi_rc I) []) as [|x row]; [cbn in L; lia|]. destruct i as [|i]; [lia|]. cbn [nth skipn].
    apply nth_In. cbn in L. lia.
Qed.

(** [new] on the literals is [new] on the residues *)
Lemma p2_instance_residues {F} {Fo : FOps F} dbg I : p2_consistent I -> (qi_p I <= 16 ^ Z.of_nat (2 * qi_bytes I))%Z ->
  p2_instance_params dbg I = p2_new dbg (qi_t I) (qi_d I) (qi_rf I) (qi_rp I) (map (f_of_Z (F := F)) (qi_diag I))
    (map (map f_of_Z) (qi_mat I)) (map (map f_of_Z) (qi_rc I)).
Proof.
  intros HC Hp. unfold p2_instance_params.
  rewrite (vec_literal_ok _ _ _ Hp (pc_diag_canonical I HC)). cbn [bind].
  rewrite (mat_literal_ok _ _ _ Hp (pc_mat_canonical I HC)). cbn [bind].
  rewrite (mat_literal_ok _ _ _ Hp (pc_rc_canonical I HC)). reflexivity.
Qed.

Lemma p2_new_succeeds {F} {Fo : FOps F} dbg p t d rf rp (diag : list F) mi rc : good_arguments p t d rf rp ->
  exists P, p2_new dbg t d rf rp diag mi rc = Ok P.
Proof.
  intros [Hd He _ _ _ Hov]. unfold p2_new. rewrite He, Nat.eqb_refl.
  assert (((d =? 3) || (d =? 5) || (d =? 7) || (d =? 11)) = true) as ->.
  { unfold sbox_degree in Hd. cbn in Hd. destruct Hd as [<-|[<-|[<-|[]]]]; reflexivity. }
  cbn [assert bind]. rewrite uadd_ok by exact Hov. cbn [bind]. eexists. reflexivity.
Qed.

Section P2Inst.
  Variable P : mparams.
  Hypothesis Hok : params_ok P = true.

  (** the internal matrix over the concrete field *)
  Definition p2_cert (I : p2_instance) : bool :=
    (pz P =? qi_p I)%Z && (7 <? qi_p I)%Z && (qi_p I <=? 16 ^ Z.of_nat (2 * qi_bytes I))%Z &&
    args_b (qi_p I) (qi_t I) (qi_d I) (qi_rf I) (qi_rp I) && p2_consistent_b I &&
    elim (Fo := fp_ops P Hok) (qi_t I) (map (map (f_of_Z (FOps := fp_ops P Hok))) (qi_mat I)).

  Lemma p2_cert_parts I : p2_cert I = true ->
    pz P = qi_p I /\ (7 < qi_p I)%Z /\ (qi_p I <= 16 ^ Z.of_nat (2 * qi_bytes I))%Z /\
    good_arguments (qi_p I) (qi_t I) (qi_d I) (qi_rf I) (qi_rp I) /\ p2_consistent I /\
    elim (Fo := fp_ops P Hok) (qi_t I) (map (map (f_of_Z (FOps := fp_ops P Hok))) (qi_mat I)) = true.
  Proof.
    unfold p2_cert. intros H. rewrite ?andb_true_iff in H; repeat match type of H with _ /\ _ => destruct H as [H ?Hb] end.
    apply Z.eqb_eq in H. apply Z.ltb_lt in Hb3. apply Z.leb_le in Hb2. apply args_ok in Hb1.
    split; [exact H|]. split; [exact Hb3|]. split; [exact Hb2|]. split; [exact Hb1|]. split; [|exact Hb].
    apply p2_consistent_ok; [lia|assumption].
  Qed.

  Lemma p2_matrix_applied I {F} {Fo : FOps F} (HP : is_prime_field Fo (qi_p I)) : p2_width (qi_t I) -> p2_consistent I ->
    mat_eq (qi_t I) (int_matrix (qi_t I) (map f_of_Z (qi_diag I))) (entry (map (map (f_of_Z (F := F))) (qi_mat I))).
  Proof.
    intros Hw HC. pose proof (prime_field_is_field HP) as HF. intros i j Hi Hj. 
    rewrite (map_of_Z_entry _ _ _ _ _ (pc_mat_shape I HC)) by assumption.
    rewrite (pc_internal I HC) by assumption.
    assert (Em : forall z, f_of_Z (z mod qi_p I) = (f_of_Z z : F)).
    { intros z. apply (f_of_Z_eq_iff HP). apply Zmod_mod. }
    rewrite Em. unfold int_matrix.
    assert (En : forall n, fnat n = (f_of_Z (Z.of_nat n) : F)).
    { unfold fnat. induction n as [|n IH]; cbn [sumn]; [symmetry; apply (f_of_Z_0 HP)|].
      rewrite IH, <- (f_of_Z_1 HP), <- (f_of_Z_add HP). f_equal. lia. }
    destruct (qi_t I <? 4) eqn:E4.
    - apply Nat.ltb_lt in E4. rewrite En. f_equal. unfold p2_width in Hw. cbn in Hw.
      assert (qi_t I = 2 \/ qi_t I = 3) as [E|E] by lia; rewrite E in *.
      + rewrite (pc_diag2 I HC E). destruct i as [|[|i]]; [| |lia]; (destruct j as [|[|j]]; [| |lia]); reflexivity.
      + rewrite (pc_diag3 I HC E). destruct i as [|[|[|i]]]; [| | |lia]; (destruct j as [|[|[|j]]]; [| | |lia]); reflexivity.
    - destruct (i =? j).
      + rewrite (nth_map_d _ _ i 0%Z) by (rewrite (pc_diag_length I HC); exact Hi).
        rewrite <- (f_of_Z_1 HP), <- (f_of_Z_add HP). f_equal. lia.
      + symmetry. apply (f_of_Z_1 HP).
  Qed.

  Theorem p2_cert_bijective I : prime (qi_p I) -> p2_cert I = true ->
    forall {F} {Fo : FOps F}, is_prime_field Fo (qi_p I) -> forall dbg,
    exists Q, p2_instance_params dbg I = Ok Q /\ bijective_on (qi_t I) (p2_permutation dbg Q).
  Proof.
    intros Hpr H F Fo HP dbg. destruct (p2_cert_parts I H) as [Ep [H7 [Hb [HA [HC HE]]]]].
    assert (HPc : is_prime_field (fp_ops P Hok) (qi_p I)).
    { rewrite <- Ep. apply fp_is_prime_field; rewrite Ep; [exact Hpr|lia]. }
    destruct (p2_new_succeeds (F := F) dbg _ _ _ _ _ (map f_of_Z (qi_diag I)) (map (map f_of_Z) (qi_mat I)) (map (map f_of_Z) (qi_rc I)) HA) as [Q HQ].
    exists Q. rewrite (p2_instance_residues dbg I HC Hb). split; [exact HQ|].
    pose proof HA as [Hd He Hw Hp1 Hg Hov].
    eapply (ProofPoseidon2Bij.p2_permutation_bijective HP); try eassumption.
    - destruct HA. repeat split.
      + intros r Hr. rewrite (map_of_Z_row _ _ _ r (pc_rc_shape I HC)); [lia|].
        pose proof (Nat.div_mod (qi_rf I) 2 ltac:(lia)). lia.
      + intros r Hr. rewrite (map_of_Z_row _ _ _ r (pc_rc_shape I HC)).
        * pose proof (ProofPoseidon2.p2_width_pos _ Hw). lia.
        * pose proof (Nat.div_mod (qi_rf I) 2 ltac:(lia)). lia.
      + intros _ _. rewrite map_length, (pc_diag_length I HC). lia.
    - intros Hin. apply ProofPoseidon2Bij.ext_bad_primes_small in Hin. lia.
    - right. apply (nonsingular_invertible (prime_field_is_field HP)).
      apply (nonsingular_ext _ (entry (map (map (f_of_Z (F := F))) (qi_mat I)))).
      { intros i j Hi Hj. symmetry. apply (p2_matrix_applied I HP Hw HC); assumption. }
      pose proof (ProofPoseidon2.p2_width_pos _ Hw).
      pose proof (elim_ok (prime_field_is_field HPc) _ _ (map_of_Z_dims (Fo := fp_ops P Hok) _ _ _ (pc_mat_shape I HC)) HE) as HL.
      apply (nonsingular_transfer HPc HP (qi_t I) (entry (Fo := fp_ops P Hok) (map (map (f_of_Z (FOps := fp_ops P Hok))) (qi_mat I)))); [|apply HL; lia].
      intros i j Hi Hj. apply (entry_transfer HPc HP _ (qi_t I) (qi_t I)); try assumption.
      + apply (pc_mat_shape I HC).
      + intros k Hk. apply (shape_nth _ _ _ k (pc_mat_shape I HC) Hk).
  Qed.

  (** ** Poseidon *)
  Definition ps_cert (I : ps_instance) : bool :=
    (pz P =? si_p I)%Z && (7 <? si_p I)%Z && (si_p I <=? 16 ^ Z.of_nat (2 * si_bytes I))%Z &&
    args_b (si_p I) (si_t I) (si_d I) (si_rf I) (si_rp I) &&
    shape_b (si_rf I + si_rp I) (si_t I) (si_rc I) && shape_b (si_t I) (si_t I) (si_mds I) &&
    canon_mat_b (si_p I) (si_rc I) && canon_mat_b (si_p I) (si_mds I) &&
    new_check (Fo := fp_ops P Hok) (si_t I) (si_rp I) (map (map (f_of_Z (FOps := fp_ops P Hok))) (si_mds I)).

  Lemma ps_cert_parts I : ps_cert I = true ->
    pz P = si_p I /\ (7 < si_p I)%Z /\ (si_p I <= 16 ^ Z.of_nat (2 * si_bytes I))%Z /\
    good_arguments (si_p I) (si_t I) (si_d I) (si_rf I) (si_rp I) /\ ps_consistent I /\
    new_check (Fo := fp_ops P Hok) (si_t I) (si_rp I) (map (map (f_of_Z (FOps := fp_ops P Hok))) (si_mds I)) = true.
  Proof.
    unfold ps_cert. intros H. rewrite ?andb_true_iff in H; repeat match type of H with _ /\ _ => destruct H as [H ?Hb] end.
    apply Z.eqb_eq in H. apply Z.ltb_lt in Hb6. apply Z.leb_le in Hb5. apply args_ok in Hb4.
    split; [exact H|]. split; [exact Hb6|]. split; [exact Hb5|]. split; [exact Hb4|]. split; [|exact Hb].
    constructor; [apply shape_ok|apply shape_ok|apply canon_mat_ok|apply canon_mat_ok]; assumption.
  Qed.

  Lemma ps_instance_residues {F} {Fo : FOps F} dbg I : ps_consistent I -> (si_p I <= 16 ^ Z.of_nat (2 * si_bytes I))%Z ->
    ps_instance_params dbg I = ps_new dbg (si_t I) (si_d I) (si_rf I) (si_rp I)
      (map (map (f_of_Z (F := F))) (si_mds I)) (map (map f_of_Z) (si_rc I)).
  Proof.
    intros HC Hp. unfold ps_instance_params.
    rewrite (mat_literal_ok _ _ _ Hp (sc_mds_canonical I HC)). cbn [bind].
    rewrite (mat_literal_ok _ _ _ Hp (sc_rc_canonical I HC)). reflexivity.
  Qed.

  Theorem ps_cert_ok I : prime (si_p I) -> ps_cert I = true ->
    forall {F} {Fo : FOps F}, is_prime_field Fo (si_p I) -> forall dbg,
    exists Q, ps_instance_params dbg I = Ok Q /\
      (forall x, length x = si_t I -> ps_permutation dbg Q x = ps_permutation_not_opt dbg Q x /\
         ps_permutation dbg Q x = Ok (ps_ref (si_t I) (si_d I) (si_rf I) (si_rp I)
            (entry (map (map (f_of_Z (F := F))) (si_mds I))) (map (map f_of_Z) (si_rc I)) x)) /\
      bijective_on (si_t I) (ps_permutation dbg Q) /\ bijective_on (si_t I) (ps_permutation_not_opt dbg Q).
  Proof.
    intros Hpr H F Fo HP dbg. destruct (ps_cert_parts I H) as [Ep [H7 [Hb [HA [HC HE]]]]].
    pose proof (prime_field_is_field HP) as HF.
    assert (HPc : is_prime_field (fp_ops P Hok) (si_p I)).
    { rewrite <- Ep. apply fp_is_prime_field; rewrite Ep; [exact Hpr|lia]. }
    pose proof HA as [Hd He Hw Hp1 Hg Hov]. pose proof (ProofPoseidon2.p2_width_pos _ Hw) as Ht.
    assert (Ht2 : 2 <= si_t I) by (unfold p2_width in Hw; cbn in Hw; lia).
    set (mds := map (map (f_of_Z (F := F))) (si_mds I)). set (rc := map (map (f_of_Z (F := F))) (si_rc I)).
    assert (Hdims : dims (si_t I) (si_t I) mds) by (apply map_of_Z_dims, (sc_mds_shape I HC)).
    assert (Hrows : forall r, r < si_rf I + si_rp I -> length (nth r rc []) = si_t I).
    { intros r Hr. apply (map_of_Z_row _ _ _ r (sc_rc_shape I HC) Hr). }
    destruct (new_check_ok (prime_field_is_field HPc) (si_t I) (si_rp I) _ ltac:(lia)
       (map_of_Z_dims (Fo := fp_ops P Hok) _ _ _ (sc_mds_shape I HC)) HE) as [L1 L2].
    assert (ET : forall i j, i < si_t I -> j < si_t I -> entry mds i j =
        phi (Fo := fp_ops P Hok) (entry (Fo := fp_ops P Hok) (map (map (f_of_Z (FOps := fp_ops P Hok))) (si_mds I)) i j)).
    { intros i j Hi Hj. apply (entry_transfer HPc HP _ (si_t I) (si_t I)); try assumption.
      - apply (sc_mds_shape I HC).
      - intros k Hk. apply (shape_nth _ _ _ k (sc_mds_shape I HC) Hk). }
    assert (HN : exists Q, ps_new dbg (si_t I) (si_d I) (si_rf I) (si_rp I) mds rc = Ok Q).
    { apply (ProofPoseidonFin.ps_new_success HF dbg (si_t I) (si_d I) (si_rf I) (si_rp I) mds rc Hdims).
      - intros r Hr. rewrite Hrows by exact Hr. lia.
      - intros r Hr. rewrite Hrows by exact Hr. lia.
      - exact Hov.
      - split; [exact Hd|]. split; [exact He|]. split; [lia|]. split; [exact Hp1|]. split.
        + intros k Hk. apply (nonsingular_transfer HPc HP k (entry (Fo := fp_ops P Hok) (map (map (f_of_Z (FOps := fp_ops P Hok))) (si_mds I)))); [|apply L1, Hk].
          intros i j Hi Hj. apply ET; lia.
        + intros k Hk l Hl.
          apply (nonsingular_transfer HPc HP l (mat_pow (Fo := fp_ops P Hok) (si_t I - 1) (drop0 (entry (Fo := fp_ops P Hok) (map (map (f_of_Z (FOps := fp_ops P Hok))) (si_mds I)))) k)); [|apply (L2 k Hk l Hl)].
          intros i j Hi Hj. apply (mat_pow_transfer HPc HP); [|lia|lia].
          intros a b Ha Hb'. unfold drop0. apply ET; lia. }
    destruct HN as [Q HQ]. exists Q. rewrite (ps_instance_residues dbg I HC Hb). split; [exact HQ|].
    assert (HR : ProofPoseidon.ps_rows_ok (si_t I) (si_rf I) (si_rp I) rc) by (intros r Hr; rewrite Hrows by exact Hr; lia).
    split.
    - intros x Hx. destruct (proj1 (ProofPoseidonFin.ps_permutation_ref HF dbg _ _ _ _ _ _ Q x HQ Hov Hdims HR) Hx) as [A B].
      rewrite A, B. split; reflexivity.
    - destruct (ProofPoseidonFin.ps_permutation_bijective_iff HP dbg _ _ _ _ _ _ Q HQ Hov Hdims HR) as [A B].
      split; [apply A|apply B]; exact Hg.
  Qed.
End P2Inst.
