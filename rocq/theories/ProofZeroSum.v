(** * ProofZeroSum: degrees, zero sums and agreement of the four permutations on lines *)
From Coq Require Import Permutation.
From Verif Require Import Base Field Spec FieldPow SpecPoly PolyFun ProofDegree SpecPoseidon2 SpecPoseidon SpecGmimc SpecNeptune
  ModelPoseidon2 ModelPoseidon ModelRandom ModelGmimc ModelNeptune ProofPoseidon2 ProofPoseidon ProofPoseidonFin ProofGmimc ProofNeptuneBij
  ModelFields ModelInstances SpecInstances ProofKats.
Local Open Scope nat_scope.

Section Lines.
  Context {F : Type} {Fo : FOps F} (HF : is_field Fo).
  Implicit Types perm : list F -> res (list F).

  Lemma line_length (a b : list F) x : length (line a b x) = length a.
  Proof. unfold line. rewrite map_length, seq_length. reflexivity. Qed.

  Lemma degree_of_ref t D perm ref : (forall x, length x = t -> perm x = Ok (ref x)) ->
    (forall s, dst 1 s -> dst D (fun x => ref (s x))) -> line_degree t D perm.
  Proof.
    intros E H a b La. exists (fun x => ref (line a b x)). split.
    - intros x. apply E. rewrite line_length. exact La.
    - apply (H (line a b)), (dst_line HF).
  Qed.
  Lemma degree_weaken t D D' perm : D <= D' -> line_degree t D perm -> line_degree t D' perm.
  Proof.
    intros L H a b La. destruct (H a b La) as [g [Eg Hg]]. exists g. split; [exact Eg|]. intros i. apply (poly_weaken D); [exact L|apply Hg].
  Qed.
  Theorem degree_zero_sum t D perm : line_degree t D perm -> (forall L : list F, enumerates L -> S D < length L) -> line_zero_sum t perm.
  Proof.
    intros H HD a b L La HL. destruct (H a b La) as [g [Eg Hg]]. exists g. split; [exact Eg|]. intros i. apply (zero_sum HF D _ L (Hg i) HL), HD, HL.
  Qed.
  Theorem degree_agreement t D perm perm' : line_degree t D perm -> line_degree t D perm' -> line_agreement t D perm perm'.
  Proof.
    intros H H' a b a' b' i j La La' same L ND HL All x. destruct (H a b La) as [g [Eg Hg]]. destruct (H' a' b' La') as [g' [Eg' Hg']].
    exists (g x), (g' x). split; [apply Eg|]. split; [apply Eg'|]. revert x.
    apply (poly_agree HF D (fun x => nth i (g x) f0) (fun x => nth j (g' x) f0) L (Hg i) (Hg' j) ND HL).
    intros z Hz. destruct (All z Hz) as [u [v [Eu [Ev E]]]]. rewrite Eg in Eu. rewrite Eg' in Ev. injection Eu as <-. injection Ev as <-. exact E.
  Qed.
  Theorem degree_solutions t D perm : line_degree t D perm -> line_solutions t D perm.
  Proof.
    intros H a b i y La hit L ND HL All x. destruct (H a b La) as [g [Eg Hg]].
    exists (g x). split; [apply Eg|]. revert x.
    apply (poly_values HF D (fun x => nth i (g x) f0) y L (Hg i) ND HL).
    intros z Hz. destruct (All z Hz) as [u [Eu E]]. rewrite Eg in Eu. injection Eu as <-. exact E.
  Qed.
End Lines.

Section Perms.
  Context {F : Type} {Fo : FOps F} (HF : is_field Fo).

  Lemma bound_rounds d rf rp : 1 <= d -> d ^ (2 * (rf / 2) + rp) <= d ^ (rf + rp).
  Proof. intros H. apply Nat.pow_le_mono_r; [lia|]. pose proof (Nat.div_mod rf 2). lia. Qed.

  Lemma p2_ref_line t d rf rp (diag : list F) rc perm : 1 <= d -> (forall x, length x = t -> perm x = Ok (p2_ref t d rf rp diag rc x)) -> line_degree t (d ^ (rf + rp)) perm.
  Proof.
    intros Hd E. apply (degree_weaken _ _ _ _ (bound_rounds d rf rp Hd)). apply (degree_of_ref HF t _ perm (p2_ref t d rf rp diag rc) E). intros s Hs. apply (p2_degree HF); assumption.
  Qed.
  Lemma ps_ref_line t d rf rp M (rc : list (list F)) perm : 1 <= d -> (forall x, length x = t -> perm x = Ok (ps_ref t d rf rp M rc x)) -> line_degree t (d ^ (rf + rp)) perm.
  Proof.
    intros Hd E. apply (degree_weaken _ _ _ _ (bound_rounds d rf rp Hd)). apply (degree_of_ref HF t _ perm (ps_ref t d rf rp M rc) E). intros s Hs. apply (ps_degree HF); assumption.
  Qed.
  Lemma sbox_degree_pos d : sbox_degree d -> 1 <= d.
  Proof. unfold sbox_degree. cbn [In]. lia. Qed.
  Lemma assert_degree {A} d (r : res A) (a : A) : (assert ((d =? 3) || (d =? 5) || (d =? 7)) ;; r) = Ok a -> 1 <= d.
  Proof.
    intros H. apply sbox_degree_pos, degree_bool. destruct ((d =? 3) || (d =? 5) || (d =? 7)); [reflexivity|discriminate H].
  Qed.

  Theorem p2_line_degree dbg t d rf rp (diag : list F) mi rc P : p2_new dbg t d rf rp diag mi rc = Ok P -> (N.of_nat rf + N.of_nat rp < usize_mod)%N ->
    p2_width t -> sbox_degree d -> p2_data_ok t rf rp diag rc -> line_degree t (d ^ (rf + rp)) (p2_permutation dbg P).
  Proof.
    intros HP HN Ht Hd Hok. apply (p2_ref_line t d rf rp diag rc); [apply sbox_degree_pos, Hd|].
    intros x Lx. exact (p2_permutation_ref HF dbg t d rf rp diag mi rc P x HP HN Ht Hd Hok Lx).
  Qed.
  Theorem p2_agreement dbg dbg' t d rf rp (diag diag' : list F) mi rc mi' rc' P P' :
    p2_new dbg t d rf rp diag mi rc = Ok P -> p2_new dbg' t d rf rp diag' mi' rc' = Ok P' -> (N.of_nat rf + N.of_nat rp < usize_mod)%N ->
    p2_width t -> sbox_degree d -> p2_data_ok t rf rp diag rc -> p2_data_ok t rf rp diag' rc' ->
    line_agreement t (d ^ (rf + rp)) (p2_permutation dbg P) (p2_permutation dbg' P').
  Proof.
    intros H H' HN Ht Hd Hok Hok'. apply (degree_agreement HF); [apply (p2_line_degree dbg t d rf rp diag mi rc)|apply (p2_line_degree dbg' t d rf rp diag' mi' rc')]; assumption.
  Qed.
  Theorem ps_line_degree dbg t d rf rp (mds rc : list (list F)) P : ps_new dbg t d rf rp mds rc = Ok P -> (N.of_nat rf + N.of_nat rp < usize_mod)%N ->
    dims t t mds -> (forall r, r < rf + rp -> t <= length (nth r rc [])) -> line_degree t (d ^ (rf + rp)) (ps_permutation dbg P) /\ line_degree t (d ^ (rf + rp)) (ps_permutation_not_opt dbg P).
  Proof.
    intros HP HN Hm Hc. pose proof (assert_degree d _ P HP) as Hd.
    split; apply (ps_ref_line t d rf rp (entry mds) rc); try exact Hd; intros x Lx; apply (ps_permutation_ref HF dbg t d rf rp mds rc P x HP HN Hm Hc); exact Lx.
  Qed.
  Theorem gm_line_degree dbg rng t d rounds (P : GmimcParams F) : gm_new rng t d rounds = Ok P -> 1 <= t -> 1 <= rounds ->
    line_degree t (d ^ rounds) (gm_permutation dbg P) /\ line_degree t (d ^ rounds) (gm_permutation_not_opt dbg P).
  Proof.
    intros HP Ht Hr. pose proof (assert_degree d _ P HP) as Hd.
    split; apply (degree_of_ref HF t _ _ (gm_ref t d rounds (map rng (seq 0 rounds)))).
    - intros x Lx. apply (gm_reference HF dbg rng t d rounds P x HP Lx Ht Hr).
    - intros s Hs. apply (gm_degree HF); assumption.
    - intros x Lx. apply (gm_reference HF dbg rng t d rounds P x HP Lx Ht Hr).
    - intros s Hs. apply (gm_degree HF); assumption.
  Qed.
End Perms.

Theorem np_line_degree {F} (Fo : FOps F) p (HP : is_prime_field Fo p) dbg fuel rng t d rf rp (P : NeptuneParams F) :
  np_new dbg fuel rng t d rf rp = Ok P -> (N.of_nat rf + N.of_nat rp < usize_mod)%N -> 1 <= t ->
  line_degree t (4 ^ rf * d ^ rp) (np_permutation dbg P).
Proof.
  intros HN HU Ht. pose proof (prime_field_is_field HP) as HF. pose proof (assert_degree d _ P HN) as Hd.
  apply (degree_weaken t (4 ^ (2 * (rf / 2)) * d ^ rp)).
  { apply Nat.mul_le_mono_r, Nat.pow_le_mono_r; [lia|]. pose proof (Nat.div_mod rf 2). lia. }
  apply (degree_of_ref HF t _ _ (np_ref t d rf rp (np_abc P) (entry (np_m_e P)) (np_int_matrix (fun i => fadd (nth i (np_mu P) f0) f1)) (np_rc P))).
  - intros x Lx. apply (np_permutation_reference HP dbg fuel rng t d rf rp P x HN HU); [exact Lx|left; exact Ht].
  - intros s Hs. apply (np_degree HF); assumption.
Qed.

(** ** The number of elements of a prime field *)
Section Count.
  Context {F : Type} {Fo : FOps F} {p : Z} (HP : is_prime_field Fo p).
  Definition all_elements : list F := map (fun n => f_of_Z (Z.of_nat n)) (seq 0 (Z.to_nat p)).
  Lemma all_enumerate : enumerates all_elements.
  Proof.
    pose proof (pf_p_ge_2 HP) as Hp. unfold all_elements. split.
    - apply NoDup_map_in; [|apply seq_NoDup]. intros a b Ha Hb E. apply in_seq in Ha, Hb. apply (f_of_Z_eq_iff HP) in E.
      rewrite !Z.mod_small in E by lia. lia.
    - intros x. apply in_map_iff. exists (Z.to_nat (f_to_Z x)). pose proof (pf_range _ _ HP x) as Hr. split.
      + rewrite Z2Nat.id by lia. apply (pf_of_to _ _ HP).
      + apply in_seq. lia.
  Qed.
  Lemma enumerates_length (L : list F) : enumerates L -> Z.of_nat (length L) = p.
  Proof.
    intros [ND All]. destruct all_enumerate as [ND' All'].
    assert (P : Permutation L all_elements) by (apply NoDup_Permutation; [assumption|assumption|]; intros x; split; intros _; [apply All'|apply All]).
    rewrite (Permutation_length P). unfold all_elements. rewrite map_length, seq_length. pose proof (pf_p_ge_2 HP). lia.
  Qed.
  Lemma small_degree D : (Z.of_nat D < p - 1)%Z -> forall L : list F, enumerates L -> S D < length L.
  Proof. intros H L HL. pose proof (enumerates_length L HL). lia. Qed.
End Count.

(** ** Shipped instances with a field of at least 200 bits *)
Lemma pow_lt_Z d n p : (Z.of_nat d ^ Z.of_nat n < p - 1)%Z -> (Z.of_nat (d ^ n) < p - 1)%Z.
Proof. rewrite Nat2Z.inj_pow. exact (fun H => H). Qed.
Lemma pow2_lt_Z a m d n p : (Z.of_nat a ^ Z.of_nat m * Z.of_nat d ^ Z.of_nat n < p - 1)%Z -> (Z.of_nat (a ^ m * d ^ n) < p - 1)%Z.
Proof. rewrite Nat2Z.inj_mul, !Nat2Z.inj_pow. exact (fun H => H). Qed.

Definition p2_low (I : p2_instance) : bool := negb (2 ^ 200 <? qi_p I)%Z || ((1 <=? qi_d I) && (Z.of_nat (qi_d I) ^ Z.of_nat (qi_rf I + qi_rp I) <? qi_p I - 1)%Z).
Definition ps_low (I : ps_instance) : bool := negb (2 ^ 200 <? si_p I)%Z || ((1 <=? si_d I) && (Z.of_nat (si_d I) ^ Z.of_nat (si_rf I + si_rp I) <? si_p I - 1)%Z).
Definition np_low (I : np_instance) : bool := negb (2 ^ 200 <? ni_p I)%Z ||
  ((1 <=? ni_t I) && (N.of_nat (ni_rf I) + N.of_nat (ni_rp I) <? usize_mod)%N && (Z.of_nat 4 ^ Z.of_nat (ni_rf I) * Z.of_nat (ni_d I) ^ Z.of_nat (ni_rp I) <? ni_p I - 1)%Z).
Lemma p2_low_all : forallb p2_low p2_instances = true. Proof. vm_cast_no_check (eq_refl true). Qed.
Lemma ps_low_all : forallb ps_low ps_instances = true. Proof. vm_cast_no_check (eq_refl true). Qed.
Lemma np_low_all : forallb np_low np_instances = true. Proof. vm_cast_no_check (eq_refl true). Qed.

Theorem p2_shipped_zero_sum : forall I, In I p2_instances -> (2 ^ 200 < qi_p I)%Z ->
  forall F (Fo : FOps F), is_prime_field Fo (qi_p I) -> forall dbg,
  exists Q, p2_instance_params dbg I = Ok Q /\ line_zero_sum (qi_t I) (p2_permutation dbg Q).
Proof.
  intros I HI Big F Fo HP dbg. destruct (p2_shipped_permutation I HI F Fo HP dbg) as [Q [EQ [_ HQ]]]. exists Q. split; [exact EQ|].
  pose proof (proj1 (forallb_forall _ _) p2_low_all I HI) as C. unfold p2_low in C. apply Z.ltb_lt in Big. rewrite Big in C. cbn [negb orb] in C.
  apply andb_true_iff in C. destruct C as [C1 C2]. apply Nat.leb_le in C1. apply Z.ltb_lt in C2. pose proof (prime_field_is_field HP) as HF.
  apply (degree_zero_sum HF _ (qi_d I ^ (qi_rf I + qi_rp I))).
  - exact (p2_ref_line HF _ _ _ _ _ _ _ C1 HQ).
  - apply (small_degree HP), pow_lt_Z, C2.
Qed.
Theorem ps_shipped_zero_sum : forall I, In I ps_instances -> (2 ^ 200 < si_p I)%Z ->
  forall F (Fo : FOps F), is_prime_field Fo (si_p I) -> forall dbg,
  exists Q, ps_instance_params dbg I = Ok Q /\ line_zero_sum (si_t I) (ps_permutation dbg Q).
Proof.
  intros I HI Big F Fo HP dbg. destruct (ps_shipped_permutation I HI) as [_ A]. destruct (A F Fo HP dbg) as [Q [EQ [HQ _]]]. exists Q. split; [exact EQ|].
  pose proof (proj1 (forallb_forall _ _) ps_low_all I HI) as C. unfold ps_low in C. apply Z.ltb_lt in Big. rewrite Big in C. cbn [negb orb] in C.
  apply andb_true_iff in C. destruct C as [C1 C2]. apply Nat.leb_le in C1. apply Z.ltb_lt in C2. pose proof (prime_field_is_field HP) as HF.
  apply (degree_zero_sum HF _ (si_d I ^ (si_rf I + si_rp I))).
  - exact (ps_ref_line HF _ _ _ _ _ _ _ C1 (fun x Lx => proj2 (HQ x Lx))).
  - apply (small_degree HP), pow_lt_Z, C2.
Qed.
Theorem np_shipped_zero_sum : forall I, In I np_instances -> (2 ^ 200 < ni_p I)%Z ->
  forall F (Fo : FOps F), is_prime_field Fo (ni_p I) -> forall dbg fuel rng (P : NeptuneParams F),
  np_new dbg fuel rng (ni_t I) (ni_d I) (ni_rf I) (ni_rp I) = Ok P -> line_zero_sum (ni_t I) (np_permutation dbg P).
Proof.
  intros I HI Big F Fo HP dbg fuel rng P HN. pose proof (prime_field_is_field HP) as HF.
  pose proof (proj1 (forallb_forall _ _) np_low_all I HI) as C. unfold np_low in C. apply Z.ltb_lt in Big. rewrite Big in C. cbn [negb orb] in C.
  apply andb_true_iff in C. destruct C as [C C2]. apply andb_true_iff in C. destruct C as [C1 C3]. apply Nat.leb_le in C1. apply N.ltb_lt in C3. apply Z.ltb_lt in C2.
  apply (degree_zero_sum HF _ (4 ^ ni_rf I * ni_d I ^ ni_rp I)).
  - exact (np_line_degree Fo _ HP dbg fuel rng _ _ _ _ P HN C3 C1).
  - apply (small_degree HP), pow2_lt_Z, C2.
Qed.
(** the general form *)
Theorem zero_sum_perm : forall F (Fo : FOps F) p, is_prime_field Fo p -> forall t D perm, line_degree t D perm -> (Z.of_nat D < p - 1)%Z -> line_zero_sum t perm.
Proof. intros F Fo p HP t D perm H HD. exact (degree_zero_sum (prime_field_is_field HP) t D perm H (small_degree HP D HD)). Qed.
