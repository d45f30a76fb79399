(** * ProofGrain3: checks of the shipped constants against the generator *)
From Coq Require Import Uint63 Znumtheory.
From Verif Require Import Base Field Spec SpecMDS MDS Limbs Fp FieldPow ModelInstances SpecInstances Elim ProofInstances ModelGrain ProofGrain ProofGrain2.
Local Open Scope nat_scope.

Definition bitlen (p : Z) : nat := Z.to_nat (Z.log2 p + 1).

Lemma init_length sbox n t rf rp : length (init_generator 1 sbox n t rf rp) = 80.
Proof. unfold init_generator, zfill. rewrite !app_length, !map_length, !seq_length, repeat_length. reflexivity. Qed.

(** the k first draws, from w words *)
Definition stream (w k sbox : nat) (p : Z) (t rf rp : nat) : list Z :=
  numbers k (bitlen p) (run w (init_generator 1 sbox (bitlen p) t rf rp)).
Lemma stream_ok w k sbox p t rf rp :
  draws (bitlen p) (grain_start 1 sbox (bitlen p) t rf rp) (stream w k sbox p t rf rp).
Proof. unfold stream, grain_start. apply numbers_ok, run_ok, init_length. Qed.

Lemma eq_list_ok a b : eq_list_b a b = true -> a = b.
Proof.
  unfold eq_list_b. revert b. induction a as [|x a IH]; intros [|y b] H; try reflexivity; try discriminate.
  cbn [length combine forallb] in H. rewrite ?andb_true_iff in H. destruct H as [H1 [H2 H3]].
  apply Z.eqb_eq in H2. subst y. f_equal. apply IH. rewrite H3, andb_true_r. exact H1.
Qed.

Section Z0.
  Context {F : Type} {Fo : FOps F} (HF : is_field Fo).
  Add Ring FringGrain : (ff_ring _ HF).
  Lemma Rmul0l x : fmul f0 x = f0.
  Proof. ring. Qed.
End Z0.

(** u = v modulo p, for |u - v| <= p *)
Definition near_b (p u v : Z) : bool := let d := (u - v)%Z in ((d =? 0) || (d =? p) || (d =? - p))%Z.
Lemma near_ok p u v : near_b p u v = true -> (u mod p = v mod p)%Z.
Proof.
  unfold near_b. rewrite !orb_true_iff, !Z.eqb_eq. intros H.
  destruct (Z.eq_dec p 0) as [->|Hp]; [rewrite !Zmod_0_r; lia|].
  assert (exists k, u = v + k * p)%Z as [k ->].
  { destruct H as [[H|H]|H]; [exists 0%Z|exists 1%Z|exists (-1)%Z]; lia. }
  apply Z_mod_plus_full.
Qed.
(** u differs from v modulo p, for |u - v| < 2 p *)
Definition apart_b (p u v : Z) : bool :=
  let d := (u - v)%Z in (negb ((d =? 0) || (d =? p) || (d =? - p)) && (- (2 * p) <? d) && (d <? 2 * p))%Z.
Lemma apart_ok p u v : (0 < p)%Z -> apart_b p u v = true -> (u mod p <> v mod p)%Z.
Proof.
  unfold apart_b. intros Hp. rewrite !andb_true_iff, negb_true_iff, !orb_false_iff, !Z.eqb_neq, !Z.ltb_lt.
  intros [[[[H1 H2] H3] H4] H5] E.
  assert (D : (p | u - v)%Z).
  { apply Z.mod_divide; [lia|]. rewrite Zminus_mod, E, Z.sub_diag. apply Z.mod_0_l. lia. }
  destruct D as [k Hk]. assert (k = 0 \/ k = 1 \/ k = -1)%Z as [K|[K|K]] by nia; subst k; lia.
Qed.

(** ** Poseidon2 *)
(** successive groups of t draws *)
Fixpoint chain (n t : nat) (s : list bool) (R : list (list Z)) (s' : list bool) : Prop :=
  match R with
  | [] => s' = s
  | g :: R' => exists s1, ev (fun fuel => grain_list fuel n t s) (g, s1) /\ chain n t s1 R' s'
  end.
Lemma chain_ok n t R : forall D s, draws n s D -> (forall g, In g R -> length g = t) -> firstn (t * length R) D = concat R ->
  exists s', chain n t s R s' /\ draws n s' (skipn (t * length R) D).
Proof.
  induction R as [|g R IH]; intros D s H HR E.
  - exists s. split; [reflexivity|]. rewrite Nat.mul_0_r. exact H.
  - cbn [length concat] in E. assert (Lg : length g = t) by (apply HR; left; reflexivity).
    assert (LD : t <= length D).
    { apply (f_equal (@length Z)) in E. rewrite firstn_length, app_length, Lg in E. lia. }
    destruct (grain_list_ok n t D s H LD) as [s1 [H1 H2]].
    replace (t * S (length R)) with (t + t * length R) in E by lia.
    assert (E' : firstn t D = g /\ firstn (t * length R) (skipn t D) = concat R).
    { rewrite <- (firstn_skipn t D) in E at 1. rewrite firstn_app in E.
      rewrite (firstn_all2 (firstn t D)) in E by (rewrite firstn_length; lia).
      rewrite firstn_length, Nat.min_l in E by lia. replace (t + t * length R - t) with (t * length R) in E by lia.
      apply (f_equal (fun l => (firstn t l, skipn t l))) in E. injection E as E1 E2.
      rewrite !firstn_app, firstn_firstn, Nat.min_id, Lg, firstn_length, (Nat.min_l t (length D)), Nat.sub_diag in E1 by lia.
      rewrite !skipn_app, Lg, firstn_length, (Nat.min_l t (length D)), Nat.sub_diag in E2 by lia.
      rewrite (skipn_all2 (firstn t D)), (skipn_all2 g) in E2 by (rewrite ?firstn_length; lia).
      rewrite !firstn_O, !app_nil_r in E1. rewrite (firstn_all2 g) in E1 by lia. cbn [app skipn] in E2. split; assumption. }
    destruct E' as [E1 E2]. destruct (IH (skipn t D) s1 H2 (fun x Hx => HR x (or_intror Hx)) E2) as [s' [H3 H4]].
    exists s'. split.
    + exists s1. split; [rewrite <- E1; exact H1|exact H3].
    + rewrite skipn_skipn in H4. cbn [length]. replace (t * S (length R)) with (t * length R + t) by lia. exact H4.
Qed.
Lemma chain_diagonal {F} {Fo : FOps F} n t R : forall s s0 g s1, chain n t s R s0 -> ev (fun fuel => grain_list fuel n t s0) (g, s1) ->
  ev (fun fuel => grain_diagonal (F := F) fuel n t (length R) s) (map f_of_Z g, s1).
Proof.
  induction R as [|x R IH]; intros s s0 g s1 HC HG; cbn [chain length grain_diagonal] in *.
  - subst s0. eapply ev_bind; [exact HG|]. apply ev_ok.
  - destruct HC as [s2 [H1 H2]]. eapply ev_bind; [exact H1|]. cbn beta iota. exact (IH s2 s0 g s1 H2 HG).
Qed.

Definition p2_grain_b (w k : nat) (rejected : list (list Z)) (I : p2_instance) : bool :=
  let t := qi_t I in
  match constants (p2_zeros t (qi_rf I) (qi_rp I)) (qi_p I) 0 (qi_rf I * t + qi_rp I) (stream w k 0 (qi_p I) t (qi_rf I) (qi_rp I)) with
  | None => false
  | Some (l, D) => eq_list_b l (concat (qi_rc I)) &&
      ((t <? 4) || (let r := length rejected in let g := firstn t (skipn (t * r) D) in
        (t * S r <=? length D) && forallb (fun g => length g =? t) rejected && eq_list_b (firstn (t * r) D) (concat rejected) &&
        forallb (fun i => near_b (qi_p I) (nth i g 0%Z) (zentry (qi_mat I) i i)) (seq 0 t)))
  end.

Theorem p2_grain_ok w k rejected I : p2_grain_b w k rejected I = true ->
  exists s, ev (fun fuel => generate_constants fuel (bitlen (qi_p I)) (qi_t I) (qi_rf I) (qi_rp I) (qi_p I)
                    (grain_start 1 0 (bitlen (qi_p I)) (qi_t I) (qi_rf I) (qi_rp I))) (concat (qi_rc I), s) /\
    (4 <= qi_t I -> exists s0 g s1, chain (bitlen (qi_p I)) (qi_t I) s rejected s0 /\
       ev (fun fuel => grain_list fuel (bitlen (qi_p I)) (qi_t I) s0) (g, s1) /\ length g = qi_t I /\
       forall i, i < qi_t I -> (nth i g 0 mod qi_p I = zentry (qi_mat I) i i mod qi_p I)%Z).
Proof.
  unfold p2_grain_b. intros H.
  destruct (constants _ _ _ _ _) as [[l D]|] eqn:E; [|discriminate].
  apply andb_true_iff in H. destruct H as [H1 H2]. apply eq_list_ok in H1. subst l.
  destruct (generate_constants_ok (bitlen (qi_p I)) _ _ _ _ _ _ _ _ (stream_ok w k 0 (qi_p I) (qi_t I) (qi_rf I) (qi_rp I)) E) as [s [H3 H4]].
  exists s. split; [exact H3|]. intros H5.
  apply orb_true_iff in H2. destruct H2 as [H2|H2]; [apply Nat.ltb_lt in H2; lia|].
  rewrite !andb_true_iff in H2. destruct H2 as [[[H2 H7] H8] H6]. apply Nat.leb_le in H2. apply eq_list_ok in H8.
  assert (HR : forall g, In g rejected -> length g = qi_t I).
  { intros g Hg. rewrite forallb_forall in H7. apply Nat.eqb_eq. apply H7. exact Hg. }
  destruct (chain_ok _ _ rejected D s H4 HR H8) as [s0 [H9 H10]].
  destruct (grain_list_ok _ (qi_t I) _ s0 H10) as [s1 [H11 _]]; [rewrite skipn_length; lia|].
  exists s0, (firstn (qi_t I) (skipn (qi_t I * length rejected) D)), s1. split; [exact H9|]. split; [exact H11|].
  split; [rewrite firstn_length, skipn_length; lia|]. intros i Hi. apply near_ok.
  rewrite forallb_forall in H6. apply H6. apply in_seq. lia.
Qed.

(** ** Poseidon *)
Section PS.
  Variable P : mparams.
  Hypothesis Hok : params_ok P = true.

  Definition cauchy_b (p : Z) (t : nat) (g : list Z) (M : list (list Z)) : bool :=
    (length g =? 2 * t) &&
    forallb (fun i => forallb (fun j => (i =? j) || apart_b p (nth i g 0%Z) (nth j g 0%Z)) (seq 0 (2 * t))) (seq 0 (2 * t)) &&
    (let g := map (f_of_Z (FOps := fp_ops P Hok)) g in
     let M := map (map (f_of_Z (FOps := fp_ops P Hok))) M in
     forallb (fun i => let x := nth i g (f0 (FOps := fp_ops P Hok)) in let r := nth i M [] in
       forallb (fun j => feqb (FOps := fp_ops P Hok)
         (fmul (FOps := fp_ops P Hok) (fadd (FOps := fp_ops P Hok) x (nth (t + j) g (f0 (FOps := fp_ops P Hok)))) (nth j r (f0 (FOps := fp_ops P Hok))))
         (f1 (FOps := fp_ops P Hok))) (seq 0 t)) (seq 0 t)).

  Definition ps_grain_b (w k : nat) (I : ps_instance) : bool :=
    let t := si_t I in
    (pz P =? si_p I)%Z && (7 <? si_p I)%Z && shape_b t t (si_mds I) &&
    match constants (fun _ => 0) (si_p I) 0 ((si_rf I + si_rp I) * t) (stream w k 1 (si_p I) t (si_rf I) (si_rp I)) with
    | None => false
    | Some (l, D) => eq_list_b l (concat (si_rc I)) && cauchy_b (si_p I) t (firstn (2 * t) D) (si_mds I)
    end.

  Lemma cauchy_ok p t g M : prime p -> (7 < p)%Z -> pz P = p -> shape t t M -> cauchy_b p t g M = true ->
    length g = 2 * t /\ forall F (Fo : FOps F), is_prime_field Fo p ->
      (forall i j, i < 2 * t -> j < 2 * t -> (f_of_Z (nth i g 0%Z) : F) = f_of_Z (nth j g 0%Z) -> i = j) /\
      (forall i j, i < t -> j < t -> fadd (f_of_Z (nth i g 0%Z)) (f_of_Z (nth (t + j) g 0%Z)) <> (f0 : F)) /\
      (forall i j, i < t -> j < t -> finv (fadd (f_of_Z (nth i g 0%Z)) (f_of_Z (nth (t + j) g 0%Z))) = entry (map (map (f_of_Z (F := F))) M) i j).
  Proof.
    intros Hpr H7 Ep [HS1 HS2] H. unfold cauchy_b in H. rewrite !andb_true_iff in H. destruct H as [[H1 H2] H3].
    apply Nat.eqb_eq in H1. split; [exact H1|]. intros F Fo HP. pose proof (prime_field_is_field HP) as HF.
    assert (HPc : is_prime_field (fp_ops P Hok) p) by (rewrite <- Ep; apply fp_is_prime_field; rewrite Ep; [exact Hpr|lia]).
    assert (Q : forall i j, i < t -> j < t -> fmul (fadd (f_of_Z (nth i g 0%Z)) (f_of_Z (nth (t + j) g 0%Z))) (entry (map (map (f_of_Z (F := F))) M) i j) = f1).
    { intros i j Hi Hj. rewrite forallb_forall in H3. specialize (H3 i ltac:(apply in_seq; lia)). cbn beta zeta in H3.
      rewrite forallb_forall in H3. specialize (H3 j ltac:(apply in_seq; lia)). cbn beta in H3.
      apply (ff_eqb _ (prime_field_is_field HPc)) in H3.
      assert (Lr : length (nth i M []) = t) by (apply HS2, nth_In; lia).
      rewrite (nth_map_d _ _ i 0%Z), (nth_map_d _ _ (t + j) 0%Z), (nth_map_d _ _ i []), (nth_map_d _ _ j 0%Z) in H3 by lia.
      rewrite <- (f_of_Z_add HPc), <- (f_of_Z_mul HPc), <- (f_of_Z_1 HPc) in H3. apply (f_of_Z_eq_iff HPc) in H3.
      unfold entry. rewrite (nth_map_d _ _ i []), (nth_map_d _ _ j 0%Z) by lia.
      rewrite <- (f_of_Z_add HP), <- (f_of_Z_mul HP), <- (f_of_Z_1 HP). apply (f_of_Z_eq_iff HP). exact H3. }

    assert (NZ : forall i j, i < t -> j < t -> fadd (f_of_Z (nth i g 0%Z)) (f_of_Z (nth (t + j) g 0%Z)) <> (f0 : F)).
    { intros i j Hi Hj E. specialize (Q i j Hi Hj). rewrite E in Q. apply (ff_one_neq_zero _ HF). rewrite <- Q. apply (Rmul0l HF). }
    split; [|split; [exact NZ|]].
    - intros i j Hi Hj E. rewrite forallb_forall in H2. specialize (H2 i ltac:(apply in_seq; lia)). cbn beta in H2.
      rewrite forallb_forall in H2. specialize (H2 j ltac:(apply in_seq; lia)). cbn beta in H2.
      apply orb_true_iff in H2. destruct H2 as [H2|H2]; [apply Nat.eqb_eq in H2; exact H2|].
      apply apart_ok in H2; [|lia]. apply (f_of_Z_eq_iff HP) in E. contradiction.
    - intros i j Hi Hj. apply (fmul_cancel_l HF _ _ _ (NZ i j Hi Hj)). rewrite (Q i j Hi Hj). apply (finv_r HF). apply NZ; assumption.
  Qed.

  Theorem ps_grain_ok w k I : prime (si_p I) -> ps_grain_b w k I = true ->
    exists s, ev (fun fuel => generate_constants_poseidon fuel (bitlen (si_p I)) (si_t I) (si_rf I) (si_rp I) (si_p I)
                    (grain_start 1 1 (bitlen (si_p I)) (si_t I) (si_rf I) (si_rp I))) (concat (si_rc I), s) /\
      forall F (Fo : FOps F), is_prime_field Fo (si_p I) ->
        (exists s1, ev (fun fuel => create_mds_p (F := F) fuel fuel (bitlen (si_p I)) (si_t I) s) (map (map f_of_Z) (si_mds I), s1)) /\
        minors_nonsingular (si_t I) (entry (map (map (f_of_Z (F := F))) (si_mds I))).
  Proof.
    intros Hpr H. unfold ps_grain_b in H. rewrite !andb_true_iff in H. destruct H as [[[Ep H7] HS] H].
    apply Z.eqb_eq in Ep. apply Z.ltb_lt in H7. apply shape_ok in HS.
    destruct (constants _ _ _ _ _) as [[l D]|] eqn:E; [|discriminate].
    apply andb_true_iff in H. destruct H as [H1 H2]. apply eq_list_ok in H1. subst l.
    destruct (generate_constants_poseidon_ok (bitlen (si_p I)) _ _ _ _ _ _ _ _ (stream_ok w k 1 (si_p I) (si_t I) (si_rf I) (si_rp I)) E) as [s [H3 H4]].
    exists s. split; [exact H3|]. intros F Fo HP. pose proof (prime_field_is_field HP) as HF.
    set (t := si_t I) in *. set (g := firstn (2 * t) D) in *.
    destruct (cauchy_ok _ _ _ _ Hpr H7 Ep HS H2) as [Lg HC]. specialize (HC F Fo HP). destruct HC as [C1 [C2 C3]].
    split.
    - assert (LD : 2 * t <= length D) by (unfold g in Lg; rewrite firstn_length in Lg; lia).
      destruct (grain_list_ok (bitlen (si_p I)) (2 * t) D s H4 LD) as [s1 [[N HN] _]]. fold g in HN. exists s1. exists (S N). intros [|m] Hm; [lia|].
      assert (ND : has_duplicates (map (f_of_Z (F := F)) g) = false).
      { unfold has_duplicates. rewrite map_length, Lg. apply negb_false_iff. apply forallb_forall. intros i Hi. apply in_seq in Hi.
        apply forallb_forall. intros j Hj. apply in_seq in Hj. apply orb_true_iff. destruct (Nat.eqb_spec i j) as [Eij|Nij]; [left; reflexivity|right].
        apply negb_true_iff. rewrite !(nth_map_d _ _ _ 0%Z) by lia.
        destruct (feqb _ _) eqn:Eq; [|reflexivity]. apply (ff_eqb _ HF) in Eq. exfalso. apply Nij. apply C1; [lia|lia|exact Eq]. }
      cbn [create_mds_p distinct_list]. rewrite HN by lia. cbn [bind]. rewrite ND. cbn [bind].
      assert (Ex : forall i, i < t -> nth i (firstn t (map (f_of_Z (F := F)) g)) f0 = f_of_Z (nth i g 0%Z)).
      { intros i Hi. rewrite <- (nth_map_d f_of_Z _ i 0%Z f0) by lia. rewrite <- (firstn_skipn t (map f_of_Z g)) at 2.
        rewrite app_nth1; [reflexivity|]. rewrite firstn_length, map_length. lia. }
      assert (Ey : forall j, j < t -> nth j (skipn t (map (f_of_Z (F := F)) g)) f0 = f_of_Z (nth (t + j) g 0%Z)).
      { intros j Hj. rewrite <- (nth_map_d f_of_Z _ (t + j) 0%Z f0) by lia. rewrite <- (firstn_skipn t (map f_of_Z g)) at 2.
        rewrite app_nth2; rewrite firstn_length, map_length; [|lia]. f_equal. lia. }
      match goal with |- (if ?f then _ else _) = _ => assert (Hf : f = true) end.
      { apply forallb_forall. intros i Hi. apply in_seq in Hi. apply forallb_forall. intros j Hj. apply in_seq in Hj.
        rewrite Ex, Ey by lia. apply negb_true_iff. destruct (feqb _ _) eqn:Eq; [|reflexivity].
        apply (ff_eqb _ HF) in Eq. exfalso. apply (C2 i j); [lia|lia|exact Eq]. }
      rewrite Hf. f_equal. f_equal. destruct HS as [HS1 HS2]. apply (nth_ext _ _ [] []); [rewrite !map_length, seq_length; symmetry; exact HS1|].
      rewrite map_length, seq_length. intros i Hi.
      rewrite (nth_map_d _ _ i 0) by (rewrite seq_length; exact Hi). rewrite seq_nth by exact Hi. rewrite (nth_map_d _ _ i []) by lia.
      assert (Lr : length (nth i (si_mds I) []) = t) by (apply HS2, nth_In; lia).
      apply (nth_ext _ _ f0 f0); [rewrite !map_length, seq_length; symmetry; exact Lr|].
      rewrite map_length, seq_length. intros j Hj. rewrite (nth_map_d _ _ j 0) by (rewrite seq_length; exact Hj). rewrite seq_nth by exact Hj.
      cbn [plus]. rewrite Ex, Ey by assumption. rewrite (C3 i j Hi Hj). unfold entry. rewrite (nth_map_d _ _ i []) by lia. reflexivity.
    - intros rows cols NR NC EL HR HCs. 
      eapply (nonsingular_ext _ (fun i j => finv (fadd (f_of_Z (nth (nth i rows 0) g 0%Z)) (f_of_Z (nth (t + nth j cols 0) g 0%Z))))).
      + intros i j Hi Hj. apply C3; [apply HR|apply HCs]; apply nth_In; lia.
      + apply (cauchy_minors HF t (fun i => f_of_Z (nth i g 0%Z)) (fun j => f_of_Z (nth (t + j) g 0%Z))); try assumption.
        * intros i j Hi Hj Eq. apply C1; [lia|lia|exact Eq].
        * intros i j Hi Hj Eq. assert (t + i = t + j) by (apply C1; [lia|lia|exact Eq]). lia.
  Qed.
End PS.
