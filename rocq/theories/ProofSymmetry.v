(** * ProofSymmetry: rearrangements that commute with the linear layers *)
From Coq Require Import Permutation.
From Verif Require Import Base Field Spec SpecPoseidon2 SpecNeptune SpecInstances SpecSymmetry LinAlg MDS ModelUtils ModelPoseidon2 ModelPoseidon ModelNeptune ModelInstances.
From Verif Require ProofPoseidon2 ProofPoseidon2Lin ProofPoseidon ProofSmall ProofNeptuneBij ProofInstances ProofKats Elim.
Local Open Scope nat_scope.

Lemma rearr_perm t s : rearrangement t s -> Permutation (map s (seq 0 t)) (seq 0 t).
Proof.
  intros [A B]. apply NoDup_Permutation_bis.
  - apply (NoDup_nth _ 0). rewrite map_length, seq_length. intros i j Hi Hj E. rewrite !(nth_indep _ 0 (s 0)) in E by (rewrite map_length, seq_length; assumption).
    rewrite !map_nth, !seq_nth in E by assumption. apply B; assumption.
  - rewrite map_length. reflexivity.
  - intros y Hy. apply in_map_iff in Hy. destruct Hy as [i [<- Hi]]. apply in_seq in Hi. apply in_seq. specialize (A i). lia.
Qed.
Lemma rearr_onto t s k : rearrangement t s -> k < t -> exists i, i < t /\ s i = k.
Proof.
  intros H Hk. assert (In k (map s (seq 0 t))) as I by (apply (Permutation_in _ (Permutation_sym (rearr_perm t s H))), in_seq; lia).
  apply in_map_iff in I. destruct I as [i [E Hi]]. apply in_seq in Hi. exists i. split; [lia|exact E].
Qed.

Section Sym.
  Context {F : Type} {Fo : FOps F} (HF : is_field Fo).
  Add Ring FRSym : (ff_ring _ HF).

  Lemma sumn_rearr t s (f : nat -> F) : rearrangement t s -> sumn t (fun i => f (s i)) = sumn t f.
  Proof.
    intros H. rewrite <- !(lsum_seq HF). rewrite <- (lsum_perm HF f _ _ (rearr_perm t s H)). unfold lsum. rewrite map_map. reflexivity.
  Qed.
  Lemma rearrange_length t s (x : list F) : length (rearrange t s x) = t.
  Proof. unfold rearrange. rewrite map_length, seq_length. reflexivity. Qed.
  Lemma rearrange_nth t s (x : list F) i : i < t -> nth i (rearrange t s x) f0 = nth (s i) x f0.
  Proof. intros H. unfold rearrange. rewrite nth_map_seq by exact H. reflexivity. Qed.
  Lemma apply_length t (A : mat) (x : list F) : length (mat_apply t t A x) = t.
  Proof. unfold mat_apply. rewrite map_length, seq_length. reflexivity. Qed.
  Lemma apply_nth t (A : mat) (x : list F) i : i < t -> nth i (mat_apply t t A x) f0 = sumn t (fun j => fmul (A i j) (nth j x f0)).
  Proof. intros H. unfold mat_apply. rewrite nth_map_seq by exact H. reflexivity. Qed.

  Lemma apply_rearrange t s (A : mat) (x : list F) : rearrangement t s -> (forall i j, i < t -> j < t -> A (s i) (s j) = A i j) ->
    mat_apply t t A (rearrange t s x) = rearrange t s (mat_apply t t A x).
  Proof.
    intros H E. apply (nth_ext _ _ f0 f0); rewrite apply_length; [symmetry; apply rearrange_length|]. intros i Hi.
    rewrite apply_nth, rearrange_nth, apply_nth by (try exact Hi; apply H; exact Hi).
    rewrite <- (sumn_rearr t s (fun j => fmul (A (s i) j) (nth j x f0)) H). apply sumn_ext. intros j Hj. rewrite E, rearrange_nth by assumption. reflexivity.
  Qed.
  Lemma rearrange_apply t s (A : mat) : rearrangement t s ->
    (forall x, length x = t -> mat_apply t t A (rearrange t s x) = rearrange t s (mat_apply t t A x)) ->
    forall i j, i < t -> j < t -> A (s i) (s j) = A i j.
  Proof.
    intros H E i j Hi Hj. specialize (E (map (fun k => if k =? s j then f1 else f0) (seq 0 t)) ltac:(rewrite map_length, seq_length; reflexivity)).
    apply (f_equal (fun l => nth i l f0)) in E. rewrite apply_nth, rearrange_nth, apply_nth in E by (try exact Hi; apply H; exact Hi).
    rewrite (sumn_single HF t j), (sumn_single HF t (s j)) in E.
    - rewrite rearrange_nth, !nth_map_seq, Nat.eqb_refl in E by (try assumption; apply H; assumption). cbn [plus] in E.
      transitivity (fmul (A (s i) (s j)) f1); [ring|]. rewrite <- E. ring.
    - apply H. exact Hj.
    - intros k Hk N. rewrite nth_map_seq by exact Hk. cbn [plus]. destruct (Nat.eqb_spec k (s j)); [contradiction|]. ring.
    - exact Hj.
    - intros k Hk N. rewrite rearrange_nth, nth_map_seq by (try exact Hk; apply H; exact Hk). cbn [plus].
      destruct (Nat.eqb_spec (s k) (s j)) as [Eq|Nq]; [|ring]. exfalso. apply N, H; assumption.
  Qed.
  Theorem symmetric_matrix t s (A : mat) (f : list F -> res (list F)) : rearrangement t s ->
    (forall x, length x = t -> f x = Ok (mat_apply t t A x)) ->
    (symmetric_under t s f <-> forall i j, i < t -> j < t -> A (s i) (s j) = A i j).
  Proof.
    intros H Hf. split.
    - intros S. apply rearrange_apply; [exact H|]. intros x Hx. destruct (S x Hx) as (y & E1 & _ & E2). rewrite Hf in E1, E2 by (try exact Hx; apply rearrange_length).
      assert (Ey : y = mat_apply t t A x) by congruence. subst y. congruence.
    - intros E x Hx. exists (mat_apply t t A x). split; [apply Hf, Hx|]. split; [apply apply_length|]. rewrite Hf by apply rearrange_length. f_equal. apply apply_rearrange; assumption.
  Qed.
End Sym.

(** ** The external matrix *)
Definition m4 (a b : nat) : nat := nth b (nth a [[5;7;1;3];[4;6;1;1];[1;3;5;7];[1;1;4;6]] []) 0.
Definition same (t i j : nat) : bool := negb (t =? 4) && (i / 4 =? j / 4).
Lemma same_sym t i j : same t i j = same t j i.
Proof. unfold same. rewrite (Nat.eqb_sym (i / 4)). reflexivity. Qed.
Definition val (q : bool) (a b : nat) : nat := (if q then 2 else 1) * m4 a b.
Definition near13 (v w : nat) : bool := v mod 13 =? w mod 13.
Definition table_b : bool :=
  forallb (fun a => forallb (fun b => forallb (fun a' => forallb (fun b' => forallb (fun q => forallb (fun q' =>
    negb (near13 (m4 a a) (m4 a' a')) || negb (near13 (m4 b b) (m4 b' b')) ||
    negb (near13 (val q a b) (val q' a' b')) || negb (near13 (val q b a) (val q' b' a')) ||
    (Bool.eqb q q' && ((a' + 4 - a) mod 4 =? (b' + 4 - b) mod 4) && (((a' + 4 - a) mod 4 =? 0) || ((a' + 4 - a) mod 4 =? 2))))
    [true; false]) [true; false]) (seq 0 4)) (seq 0 4)) (seq 0 4)) (seq 0 4).
Lemma table_ok : table_b = true.
Proof. vm_compute. reflexivity. Qed.
Lemma table a b a' b' q q' : a < 4 -> b < 4 -> a' < 4 -> b' < 4 -> near13 (m4 a a) (m4 a' a') = true -> near13 (m4 b b) (m4 b' b') = true ->
  near13 (val q a b) (val q' a' b') = true -> near13 (val q b a) (val q' b' a') = true ->
  q = q' /\ (a' + 4 - a) mod 4 = (b' + 4 - b) mod 4 /\ ((a' + 4 - a) mod 4 = 0 \/ (a' + 4 - a) mod 4 = 2).
Proof.
  intros Ha Hb Ha' Hb' H1 H2 H3 H4. pose proof table_ok as T. unfold table_b in T.
  rewrite forallb_forall in T. specialize (T a ltac:(apply in_seq; lia)). rewrite forallb_forall in T. specialize (T b ltac:(apply in_seq; lia)).
  rewrite forallb_forall in T. specialize (T a' ltac:(apply in_seq; lia)). rewrite forallb_forall in T. specialize (T b' ltac:(apply in_seq; lia)).
  rewrite forallb_forall in T. specialize (T q ltac:(destruct q; cbn; tauto)). rewrite forallb_forall in T. specialize (T q' ltac:(destruct q'; cbn; tauto)).
  rewrite H1, H2, H3, H4 in T. cbn [negb orb] in T. rewrite !andb_true_iff, orb_true_iff, !Nat.eqb_eq in T. destruct T as [[T1 T2] T3].
  split; [apply Bool.eqb_prop, T1|]. split; assumption.
Qed.
Lemma m4_bounds : forallb (fun a => forallb (fun b => (1 <=? m4 a b) && (m4 a b <=? 7)) (seq 0 4)) (seq 0 4) = true.
Proof. reflexivity. Qed.
Lemma m4_le a b : a < 4 -> b < 4 -> 1 <= m4 a b <= 7.
Proof.
  intros Ha Hb. pose proof m4_bounds as T. rewrite forallb_forall in T. specialize (T a ltac:(apply in_seq; lia)). rewrite forallb_forall in T. specialize (T b ltac:(apply in_seq; lia)).
  rewrite andb_true_iff, !Nat.leb_le in T. exact T.
Qed.
Lemma m4_shift : forallb (fun a => forallb (fun b => m4 ((a + 2) mod 4) ((b + 2) mod 4) =? m4 a b) (seq 0 4)) (seq 0 4) = true.
Proof. reflexivity. Qed.
Lemma m4_swap a b : a < 4 -> b < 4 -> m4 ((a + 2) mod 4) ((b + 2) mod 4) = m4 a b.
Proof.
  intros Ha Hb. pose proof m4_shift as T. rewrite forallb_forall in T. specialize (T a ltac:(apply in_seq; lia)). rewrite forallb_forall in T. specialize (T b ltac:(apply in_seq; lia)).
  apply Nat.eqb_eq. exact T.
Qed.

Lemma divmod4 i : i = 4 * (i / 4) + i mod 4 /\ i mod 4 < 4.
Proof. split; [apply Nat.div_mod; lia|apply Nat.mod_upper_bound; lia]. Qed.
Lemma div4 b r : r < 4 -> (4 * b + r) / 4 = b.
Proof. intros H. rewrite Nat.mul_comm, Nat.div_add_l, Nat.div_small by lia. lia. Qed.
Lemma mod4 b r : r < 4 -> (4 * b + r) mod 4 = r.
Proof. intros H. rewrite Nat.add_comm, Nat.mul_comm, Nat.mod_add, Nat.mod_small by lia. reflexivity. Qed.

(** values that agree modulo 13 wherever the entries agree *)
Lemma values_move t s : rearrangement t s -> 4 <= t -> t mod 4 = 0 ->
  (forall i j, i < t -> j < t -> near13 (val (same t (s i) (s j)) (s i mod 4) (s j mod 4)) (val (same t i j) (i mod 4) (j mod 4)) = true) ->
  moves_blocks t s.
Proof.
  intros H Ht Hm E.
  assert (D : forall i, i < t -> near13 (m4 (i mod 4) (i mod 4)) (m4 (s i mod 4) (s i mod 4)) = true).
  { intros i Hi. specialize (E i i Hi Hi). unfold same in E. rewrite !Nat.eqb_refl in E. destruct (divmod4 i) as [_ A]. destruct (divmod4 (s i)) as [_ B].
    revert E. generalize (i mod 4) (s i mod 4) A B. clear. intros a b Ha Hb.
    destruct (t =? 4); cbn [negb andb]; do 4 (destruct a as [|a]; [do 4 (destruct b as [|b]; [vm_compute; congruence|]); lia|]); lia. }
  assert (K : forall i j, i < t -> j < t -> same t i j = same t (s i) (s j) /\ (s i mod 4 + 4 - i mod 4) mod 4 = (s j mod 4 + 4 - j mod 4) mod 4 /\
     ((s i mod 4 + 4 - i mod 4) mod 4 = 0 \/ (s i mod 4 + 4 - i mod 4) mod 4 = 2)).
  { intros i j Hi Hj. destruct (table (i mod 4) (j mod 4) (s i mod 4) (s j mod 4) (same t i j) (same t (s i) (s j))) as (A & B & C); try apply divmod4; auto.
    - specialize (E i j Hi Hj). unfold near13 in *. rewrite Nat.eqb_sym. exact E.
    - rewrite (same_sym t i j), (same_sym t (s i) (s j)). unfold near13. rewrite Nat.eqb_sym. exact (E j i Hj Hi). }
  exists (fun k => s (4 * k) / 4), ((s 0 mod 4 + 4 - 0 mod 4) mod 4). split; [apply (K 0 0); lia|]. intros i Hi.
  destruct (divmod4 i) as [E1 R1]. destruct (divmod4 (s i)) as [E2 R2].
  assert (Lk : 4 * (i / 4) < t) by lia.
  assert (B1 : s i / 4 = s (4 * (i / 4)) / 4).
  { destruct (Nat.eqb_spec t 4) as [T4|T4].
    - subst t. destruct H as [H1 _]. rewrite !Nat.div_small by (apply H1; assumption). reflexivity.
    - destruct (K i (4 * (i / 4)) Hi Lk) as [A _]. unfold same in A. destruct (Nat.eqb_spec t 4) as [C|_]; [contradiction|]. cbn [negb andb] in A.
      rewrite <- (Nat.add_0_r (4 * (i / 4))) in A at 1. rewrite (div4 (i / 4) 0) in A by lia. rewrite Nat.eqb_refl in A. symmetry in A. apply Nat.eqb_eq in A. exact A. }
  rewrite E2, B1. f_equal.
  destruct (K i 0 Hi ltac:(lia)) as (_ & A & C). rewrite <- A. revert C. rewrite <- (Nat.add_mod_idemp_l i) by lia.
  generalize (i mod 4) (s i mod 4) R1 R2. clear. intros a b Ha Hb. 
  do 4 (destruct a as [|a]; [do 4 (destruct b as [|b]; [vm_compute; intros [C|C]; congruence|]); lia|]); lia.
Qed.
Lemma move_values t s : rearrangement t s -> t mod 4 = 0 -> moves_blocks t s ->
  forall i j, i < t -> j < t -> same t (s i) (s j) = same t i j /\ m4 (s i mod 4) (s j mod 4) = m4 (i mod 4) (j mod 4).
Proof.
  intros H Hm (b & e & He & E) i j Hi Hj.
  assert (Q : forall k, k < t -> s k / 4 = b (k / 4) /\ s k mod 4 = (k mod 4 + e) mod 4).
  { intros k Hk. rewrite (E k Hk). rewrite div4, mod4 by (apply Nat.mod_upper_bound; lia). split; [reflexivity|]. rewrite Nat.add_mod_idemp_l by lia. reflexivity. }
  destruct (Q i Hi) as [Q1 Q2]. destruct (Q j Hj) as [Q3 Q4]. split.
  - unfold same. rewrite Q1, Q3. destruct (t =? 4); [reflexivity|]. cbn [negb andb]. destruct (Nat.eqb_spec (i / 4) (j / 4)) as [A|A]; [rewrite A; apply Nat.eqb_refl|].
    apply Nat.eqb_neq. intros C. apply A. destruct (divmod4 i) as [Ei Ri]. destruct (divmod4 j) as [Ej Rj].
    assert (X : 4 * (i / 4) = 4 * (j / 4)).
    { apply H; [lia|lia|]. rewrite (E (4 * (i / 4))), (E (4 * (j / 4))) by lia. rewrite <- (Nat.add_0_r (4 * (i / 4))), <- (Nat.add_0_r (4 * (j / 4))). rewrite !div4 by lia.
      rewrite C. f_equal. rewrite <- (Nat.add_mod_idemp_l (4 * (i / 4) + 0)), <- (Nat.add_mod_idemp_l (4 * (j / 4) + 0)) by lia. rewrite !mod4 by lia. reflexivity. }
    lia.
  - rewrite Q2, Q4. destruct (divmod4 i) as [_ Ri]. destruct (divmod4 j) as [_ Rj]. destruct He as [-> | ->]; [|apply m4_swap; assumption].
    rewrite !Nat.add_0_r, !Nat.mod_mod by lia. reflexivity.
Qed.

Section Ext.
  Context {F : Type} {Fo : FOps F} (HF : is_field Fo).
  Add Ring FRSymE : (ff_ring _ HF).
  Lemma ext_val t i j : 4 <= t -> i < t -> j < t -> (ext_matrix t i j : F) = fnat (val (same t i j) (i mod 4) (j mod 4)).
  Proof.
    intros Ht Hi Hj. unfold ext_matrix, val, same. destruct (Nat.ltb_spec t 4); [lia|]. destruct (Nat.eqb_spec t 4) as [T|T]; cbn [negb andb].
    - rewrite !Nat.mod_small by lia. rewrite Nat.mul_1_l. reflexivity.
    - rewrite (ProofPoseidon2Lin.fnat_mul HF). destruct (i / 4 =? j / 4); reflexivity.
  Qed.
End Ext.

Lemma p2_width_cases t : p2_width t -> t < 4 \/ (4 <= t /\ t mod 4 = 0).
Proof. unfold p2_width. cbn [In]. intros H. assert (N : t = 2 \/ t = 3 \/ t = 4 \/ t = 8 \/ t = 12 \/ t = 16 \/ t = 20 \/ t = 24) by lia. clear H.
  destruct N as [N | [N | [N | [N | [N | [N | [N | N]]]]]]]; rewrite N; try (left; lia); right; (split; [lia|reflexivity]). Qed.

Section P2.
  Context {F : Type} {Fo : FOps F} {p : Z} (HP : is_prime_field Fo p).
  Let HF := prime_field_is_field HP.
  Add Ring FRSymP : (ff_ring _ HF).

  Lemma ext_entries t s : p2_width t -> rearrangement t s -> (4 <= t -> moves_blocks t s) ->
    forall i j, i < t -> j < t -> (ext_matrix t (s i) (s j) : F) = ext_matrix t i j.
  Proof.
    intros W H C i j Hi Hj. destruct (p2_width_cases _ W) as [T|[T T4]].
    - unfold ext_matrix. destruct (Nat.ltb_spec t 4); [|lia]. destruct (Nat.eqb_spec i j) as [->|N]; [rewrite Nat.eqb_refl; reflexivity|].
      destruct (Nat.eqb_spec (s i) (s j)) as [E|_]; [|reflexivity]. exfalso. apply N, H; assumption.
    - destruct (move_values _ _ H T4 (C T) i j Hi Hj) as [E1 E2]. rewrite !(ext_val HF) by (try assumption; apply H; assumption). unfold val. rewrite E1, E2. reflexivity.
  Qed.
  Lemma fnat_near v w : (11 < p)%Z -> 1 <= v <= 14 -> 1 <= w <= 14 -> fnat v = (fnat w : F) -> near13 v w = true.
  Proof.
    intros Hp Hv Hw E. rewrite !(ProofPoseidon2Lin.fnat_Z HP) in E. apply (f_of_Z_eq_iff HP) in E. unfold near13. apply Nat.eqb_eq.
    apply Nat2Z.inj. rewrite !Nat2Z.inj_mod. change (Z.of_nat 13) with 13%Z.
    assert (Z.of_nat v = Z.of_nat w \/ Z.of_nat v = Z.of_nat w + p \/ Z.of_nat w = Z.of_nat v + p)%Z as C.
    { pose proof (Z.div_mod (Z.of_nat v) p ltac:(lia)) as A. pose proof (Z.div_mod (Z.of_nat w) p ltac:(lia)) as B. rewrite <- E in B.
      assert (Z.of_nat v / p = 0 \/ Z.of_nat v / p = 1)%Z as V by (assert (0 <= Z.of_nat v / p < 2)%Z by (split; [apply Z.div_pos; lia|apply Z.div_lt_upper_bound; lia]); lia).
      assert (Z.of_nat w / p = 0 \/ Z.of_nat w / p = 1)%Z as W by (assert (0 <= Z.of_nat w / p < 2)%Z by (split; [apply Z.div_pos; lia|apply Z.div_lt_upper_bound; lia]); lia).
      destruct V as [V|V], W as [W|W]; rewrite V in A; rewrite W in B; lia. }
    assert (P12 : p <> 12%Z) by (intros ->; pose proof (pf_prime _ _ HP) as Pr; assert (D : (2 | 12)%Z) by (exists 6%Z; reflexivity); destruct (prime_divisors _ Pr 2 D) as [X|[X|[X|X]]]; lia).
    destruct C as [C|[C|C]]; [rewrite C; reflexivity| |]; rewrite C.
    - replace (Z.of_nat w + p)%Z with (Z.of_nat w + 1 * 13)%Z by lia. apply Z_mod_plus_full.
    - replace (Z.of_nat v + p)%Z with (Z.of_nat v + 1 * 13)%Z by lia. symmetry. apply Z_mod_plus_full.
  Qed.
  Lemma val_bounds q a b : a < 4 -> b < 4 -> 1 <= val q a b <= 14.
  Proof. intros Ha Hb. pose proof (m4_le a b Ha Hb). unfold val. destruct q; lia. Qed.

  Theorem ext_symmetric (P : Poseidon2Params F) s : (11 < p)%Z -> p2_width (p2_t P) -> rearrangement (p2_t P) s ->
    (symmetric_under (p2_t P) s (p2_matmul_external P) <-> (4 <= p2_t P -> moves_blocks (p2_t P) s)).
  Proof.
    intros Hp W H. rewrite (symmetric_matrix HF _ s (ext_matrix (p2_t P))); [|exact H|intros x Hx; apply (ProofPoseidon2.p2_matmul_external_ok HF); assumption].
    split; [|apply ext_entries; assumption]. intros E T. destruct (p2_width_cases _ W) as [C|[_ T4]]; [lia|]. apply values_move; auto. intros i j Hi Hj. 
    pose proof (proj1 H i Hi). pose proof (proj1 H j Hj). specialize (E i j Hi Hj). rewrite !(ext_val HF) in E by assumption.
    apply (fnat_near _ _ Hp); try (apply val_bounds; apply divmod4). exact E.
  Qed.

  Lemma int_entries t s (diag : list F) : p2_width t -> rearrangement t s ->
    ((forall i j, i < t -> j < t -> int_matrix t diag (s i) (s j) = int_matrix t diag i j) <->
     (if t <? 4 then s (t - 1) = t - 1 else forall i, i < t -> nth (s i) diag f0 = nth i diag f0)).
  Proof.
    intros W H. assert (T2 : 2 <= t) by (unfold p2_width in W; cbn [In] in W; lia). unfold int_matrix. destruct (Nat.ltb_spec t 4) as [T|T].
    - split.
      + intros E. destruct (rearr_onto t s (t - 1) H ltac:(lia)) as [k [Hk Ek]]. specialize (E k k Hk Hk). rewrite !Nat.eqb_refl, Ek, Nat.eqb_refl in E.
        destruct (Nat.eqb_spec k (t - 1)) as [E'|N]; [rewrite <- E' at 1; exact Ek|]. exfalso. apply (ff_one_neq_zero _ HF). unfold fnat in E. cbn [sumn] in E.
        transitivity (fsub (fadd (fadd (fadd f0 f1) f1) f1) (fadd (fadd (f0 : F) f1) f1)); [ring|]. rewrite E. ring.
      + intros E i j Hi Hj. destruct (Nat.eqb_spec i j) as [->|N].
        * rewrite Nat.eqb_refl. destruct (Nat.eqb_spec j (t - 1)) as [->|N]; [rewrite E, Nat.eqb_refl; reflexivity|].
          destruct (Nat.eqb_spec (s j) (t - 1)) as [C|_]; [|reflexivity]. exfalso. apply N, H; [assumption|lia|congruence].
        * destruct (Nat.eqb_spec (s i) (s j)) as [C|_]; [|reflexivity]. exfalso. apply N, H; assumption.
    - split.
      + intros E i Hi. specialize (E i i Hi Hi). rewrite !Nat.eqb_refl in E.
        transitivity (fsub (fadd (nth (s i) diag f0) f1) f1); [ring|]. rewrite E. ring.
      + intros E i j Hi Hj. destruct (Nat.eqb_spec i j) as [->|N]; [rewrite Nat.eqb_refl, E by assumption; reflexivity|].
        destruct (Nat.eqb_spec (s i) (s j)) as [C|_]; [|reflexivity]. exfalso. apply N, H; assumption.
  Qed.
  Theorem int_symmetric (P : Poseidon2Params F) s (diag : list F) : p2_width (p2_t P) -> (4 <= p2_t P -> p2_t P <= length diag) -> rearrangement (p2_t P) s ->
    (symmetric_under (p2_t P) s (fun x => p2_matmul_internal P x diag) <->
     (if p2_t P <? 4 then s (p2_t P - 1) = p2_t P - 1 else forall i, i < p2_t P -> nth (s i) diag f0 = nth i diag f0)).
  Proof.
    intros W L H. rewrite (symmetric_matrix HF _ s (int_matrix (p2_t P) diag)); [|exact H|intros x Hx; apply (ProofPoseidon2.p2_matmul_internal_ok HF); assumption].
    apply int_entries; assumption.
  Qed.

  (** whole permutations *)
  Lemma full_rearr t d s (c x : list F) : p2_width t -> rearrangement t s -> (4 <= t -> moves_blocks t s) ->
    (forall i, i < t -> nth (s i) c f0 = nth i c f0) ->
    p2_ref_full t d c (rearrange t s x) = rearrange t s (p2_ref_full t d c x).
  Proof.
    intros W H C Hc. unfold p2_ref_full. rewrite <- (apply_rearrange HF t s) by (try exact H; apply ext_entries; assumption). f_equal.
    unfold rearrange at 2. apply map_ext_in. intros i Hi. apply in_seq in Hi. rewrite rearrange_nth by lia. pose proof (proj1 H i ltac:(lia)).
    rewrite nth_map_seq by assumption. cbn [plus]. rewrite Hc by lia. reflexivity.
  Qed.
  Lemma part_rearr t d s (diag c x : list F) : p2_width t -> rearrangement t s -> s 0 = 0 ->
    (if t <? 4 then s (t - 1) = t - 1 else forall i, i < t -> nth (s i) diag f0 = nth i diag f0) ->
    p2_ref_partial t d diag c (rearrange t s x) = rearrange t s (p2_ref_partial t d diag c x).
  Proof.
    intros W H S0 C. assert (T2 : 2 <= t) by (unfold p2_width in W; cbn [In] in W; lia). unfold p2_ref_partial.
    rewrite <- (apply_rearrange HF t s) by (try exact H; apply (int_entries t s diag W H); exact C). f_equal.
    unfold rearrange at 3. apply map_ext_in. intros i Hi. apply in_seq in Hi. rewrite !rearrange_nth by lia. pose proof (proj1 H i ltac:(lia)).
    rewrite nth_map_seq by assumption. cbn [plus]. rewrite S0. destruct (Nat.eqb_spec i 0) as [->|N]; [rewrite S0; reflexivity|].
    destruct (Nat.eqb_spec (s i) 0) as [E|_]; [|reflexivity]. exfalso. apply N, H; lia.
  Qed.
  Lemma fold_rearr t s (f : list F -> nat -> list F) l : (forall r x, In r l -> f (rearrange t s x) r = rearrange t s (f x r)) ->
    forall x, fold_left f l (rearrange t s x) = rearrange t s (fold_left f l x).
  Proof.
    induction l as [|r l IH]; intros E x; cbn [fold_left]; [reflexivity|]. rewrite (E r x ltac:(left; reflexivity)). apply IH. intros r' x' Hr. apply E. right. exact Hr.
  Qed.
  Lemma ref_length t d rf rp (diag : list F) rc x : length (p2_ref t d rf rp diag rc x) = t.
  Proof.
    unfold p2_ref. cbn zeta. assert (G : forall (f : list F -> nat -> list F) l y, length y = t -> (forall z r, length (f z r) = t) -> length (fold_left f l y) = t).
    { intros f l. induction l as [|r l IH]; intros y Hy Hf; cbn [fold_left]; [exact Hy|]. apply IH; [apply Hf|exact Hf]. }
    repeat (apply G; [|intros; apply apply_length]). apply apply_length.
  Qed.
  Theorem permutation_symmetric dbg t d rf rp (diag : list F) (mi rc : list (list F)) P s :
    p2_new dbg t d rf rp diag mi rc = Ok P -> (N.of_nat rf + N.of_nat rp < usize_mod)%N ->
    p2_width t -> sbox_degree d -> p2_data_ok t rf rp diag rc -> rearrangement t s ->
    (4 <= t -> moves_blocks t s) ->
    (forall r i, r < rf / 2 \/ rf / 2 + rp <= r < rf / 2 + rp + rf / 2 -> i < t -> nth (s i) (nth r rc []) f0 = nth i (nth r rc []) f0) ->
    (rp = 0 \/ (s 0 = 0 /\ if t <? 4 then s (t - 1) = t - 1 else forall i, i < t -> nth (s i) diag f0 = nth i diag f0)) ->
    symmetric_under t s (p2_permutation dbg P).
  Proof.
    intros HN OV W SD DO H C Hc Hi x Hx. exists (p2_ref t d rf rp diag rc x).
    pose proof (fun y Hy => ProofPoseidon2.p2_permutation_ref HF dbg t d rf rp diag mi rc P y HN OV W SD DO Hy) as R.
    split; [apply R, Hx|]. split; [apply ref_length|]. rewrite R by apply rearrange_length. f_equal. unfold p2_ref. cbn zeta.
    rewrite (apply_rearrange HF t s) by (try exact H; apply ext_entries; assumption).
    assert (F1 : forall r y, r < rf / 2 \/ rf / 2 + rp <= r < rf / 2 + rp + rf / 2 -> p2_ref_full t d (nth r rc []) (rearrange t s y) = rearrange t s (p2_ref_full t d (nth r rc []) y)).
    { intros r y Hr. apply (full_rearr t d s _ y W H C). intros i Hii. exact (Hc r i Hr Hii). }
    rewrite (fold_rearr t s) by (intros r y Hr; apply in_seq in Hr; apply F1; lia).
    destruct Hi as [R0 | [S0 Hd]].
    - subst rp. cbn [seq fold_left]. rewrite (fold_rearr t s) by (intros r y Hr; apply in_seq in Hr; apply F1; lia). reflexivity.
    - rewrite (fold_rearr t s (fun z r => p2_ref_partial t d diag (nth r rc []) z)) by (intros r y Hr; apply part_rearr; assumption).
      rewrite (fold_rearr t s) by (intros r y Hr; apply in_seq in Hr; apply F1; lia). reflexivity.
  Qed.

  (** Neptune's internal layer *)
  Theorem np_int_symmetric dbg fuel rng t d rf rp (P : NeptuneParams F) s :
    np_new dbg fuel rng t d rf rp = Ok P -> (N.of_nat rf + N.of_nat rp < usize_mod)%N -> 1 <= t -> rearrangement t s ->
    (symmetric_under t s (np_internal_matmul P) <-> forall i, i < t -> nth (s i) (np_mu P) f0 = nth i (np_mu P) f0).
  Proof.
    intros HN OV T H.
    assert (X : exists mu, (forall i, i < t -> mu i = fadd (nth i (np_mu P) f0) f1) /\ forall x, length x = t -> np_internal_matmul P x = Ok (mat_apply t t (np_int_matrix mu) x)).
    { exists (fun i => fadd (nth i (np_mu P) f0) f1). split; [reflexivity|]. intros x Hx.
      destruct (ProofNeptuneBij.np_internal_matmul_ok HP dbg fuel rng t d rf rp P x HN OV Hx T) as (mu & A & B). rewrite B. f_equal.
      apply map_ext_in. intros i Hi. apply in_seq in Hi. apply sumn_ext. intros j Hj. unfold np_int_matrix. destruct (i =? j); [|reflexivity].
      destruct (A i ltac:(lia)) as (_ & _ & ->). f_equal. ring. }
    destruct X as (mu & Hmu & Hf). rewrite (symmetric_matrix HF t s _ _ H Hf). unfold np_int_matrix. split.
    - intros E i Hi. specialize (E i i Hi Hi). rewrite !Nat.eqb_refl in E. rewrite !Hmu in E by (try assumption; apply H; assumption).
      transitivity (fsub (fadd (nth (s i) (np_mu P) f0) f1) f1); [ring|]. rewrite E. ring.
    - intros E i j Hi Hj. destruct (Nat.eqb_spec i j) as [->|N].
      + rewrite Nat.eqb_refl, !Hmu, E by (try assumption; apply H; assumption). reflexivity.
      + destruct (Nat.eqb_spec (s i) (s j)) as [C|_]; [|reflexivity]. exfalso. apply N, H; assumption.
  Qed.
End P2.

(** ** shipped instances *)
Lemma canonical_inj {F} {Fo : FOps F} {p} (HP : is_prime_field Fo p) (l : list Z) : canonical_vec p l -> NoDup l ->
  forall i j, i < length l -> j < length l -> nth i (map (f_of_Z (F := F)) l) f0 = nth j (map f_of_Z l) f0 -> i = j.
Proof.
  intros C N i j Hi Hj E. rewrite !(Elim.nth_map_d _ _ _ 0%Z) in E by assumption. apply (f_of_Z_eq_iff HP) in E.
  apply (NoDup_nth l 0%Z); try assumption.
  assert (A : (0 <= nth i l 0 < p)%Z) by (apply C, nth_In; assumption). assert (B : (0 <= nth j l 0 < p)%Z) by (apply C, nth_In; assumption).
  rewrite !Z.mod_small in E by assumption. exact E.
Qed.
Theorem p2_shipped_symmetric I : In I p2_instances -> forall F (Fo : FOps F), is_prime_field Fo (qi_p I) ->
  forall (P : Poseidon2Params F) s, p2_t P = qi_t I -> rearrangement (qi_t I) s ->
  (symmetric_under (qi_t I) s (fun x => p2_matmul_internal P x (map f_of_Z (qi_diag I))) <->
   (if qi_t I =? 3 then s 2 = 2 else forall i, i < qi_t I -> s i = i)).
Proof.
  intros HI F Fo HP P s ET H. destruct (ProofKats.p2_all I HI) as [m [Hok [_ HC]]].
  destruct (ProofInstances.p2_cert_parts m Hok I HC) as [_ [_ [_ [HA [HK _]]]]]. clear HC.
  assert (W : p2_width (qi_t I)) by apply (ga_width _ _ _ _ _ HA). assert (L := pc_diag_length I HK).
  rewrite <- ET in W, H |- *. rewrite (int_symmetric HP P s) by (try assumption; intros _; rewrite map_length, L, ET; apply le_n).
  pose proof (ProofSmall.shipped_diagonals I HI) as ND. rewrite ET in *. destruct (Nat.ltb_spec (qi_t I) 4) as [T|T].
  - assert (X : qi_t I = 2 \/ qi_t I = 3) by (unfold p2_width in W; cbn [In] in W; lia). destruct X as [X|X]; rewrite X in *; cbn [Nat.eqb Nat.sub]; [|tauto].
    split; [|intros E; apply E; lia]. intros E i Hi. destruct i as [|[|i]]; [|exact E|lia]. assert (A := proj1 H 0 ltac:(lia)). assert (B := proj2 H 0 1 ltac:(lia) ltac:(lia)). lia.
  - destruct (Nat.eqb_spec (qi_t I) 3) as [C|C]; [lia|]. split; [|intros E i Hi; rewrite E by exact Hi; reflexivity].
    intros E i Hi. apply (canonical_inj HP (qi_diag I) (pc_diag_canonical I HK) (ND C)); rewrite ?L; [apply H, Hi|exact Hi|apply E, Hi].
Qed.
Definition diag_entries (M : list (list Z)) (t : nat) : list Z := map (fun i => nth i (nth i M []) 0%Z) (seq 0 t).
Lemma ps_diag_b : forallb (fun I => ProofSmall.nodup_b (diag_entries (si_mds I) (si_t I))) ps_instances = true.
Proof. vm_compute. reflexivity. Qed.
Theorem ps_shipped_symmetric I : In I ps_instances -> forall F (Fo : FOps F), is_prime_field Fo (si_p I) ->
  forall dbg s, rearrangement (si_t I) s ->
  symmetric_under (si_t I) s (fun x => ps_matmul dbg x (map (map (f_of_Z (F := F))) (si_mds I))) -> forall i, i < si_t I -> s i = i.
Proof.
  intros HI F Fo HP dbg s H SY i Hi. pose proof (prime_field_is_field HP) as HF.
  destruct (ProofKats.ps_all I HI) as [P [Hok [_ HC]]]. destruct (ProofInstances.ps_cert_parts P Hok I HC) as [_ [_ [_ [_ [HK _]]]]].
  pose proof (ProofInstances.map_of_Z_dims (F := F) _ _ _ (sc_mds_shape I HK)) as HD.
  assert (Hf : forall x, length x = si_t I -> ps_matmul dbg x (map (map (f_of_Z (F := F))) (si_mds I)) = Ok (mat_apply (si_t I) (si_t I) (entry (map (map (f_of_Z (F := F))) (si_mds I))) x))
    by (intros x Hx; apply (ProofPoseidon.ps_matmul_sq HF); assumption).
  pose proof (proj1 (symmetric_matrix HF (si_t I) s _ _ H Hf) SY) as S.
  destruct (sc_mds_shape I HK) as [L1 L2]. pose proof (sc_mds_canonical I HK) as CN.
  assert (ND : NoDup (diag_entries (si_mds I) (si_t I))).
  { apply ProofSmall.nodup_b_ok. pose proof ps_diag_b as B. rewrite forallb_forall in B. apply B, HI. }
  assert (E : forall k, k < si_t I -> entry (map (map (f_of_Z (F := F))) (si_mds I)) k k = nth k (map f_of_Z (diag_entries (si_mds I) (si_t I))) f0).
  { intros k Hk. unfold entry, diag_entries. rewrite map_map, nth_map_seq by exact Hk. cbn [plus].
    rewrite (Elim.nth_map_d _ _ k []) by lia. rewrite (Elim.nth_map_d _ _ k 0%Z); [reflexivity|]. rewrite (L2 (nth k (si_mds I) [])) by (apply nth_In; lia). exact Hk. }
  assert (LD : length (diag_entries (si_mds I) (si_t I)) = si_t I) by (unfold diag_entries; rewrite map_length, seq_length; reflexivity).
  apply (canonical_inj HP (diag_entries (si_mds I) (si_t I))); rewrite ?LD; try assumption; [|apply H, Hi|].
  - intros z Hz. unfold diag_entries in Hz. apply in_map_iff in Hz. destruct Hz as [k [<- Hk]]. apply in_seq in Hk.
    apply (CN (nth k (si_mds I) [])); [apply nth_In; lia|]. apply nth_In. rewrite (L2 (nth k (si_mds I) [])) by (apply nth_In; lia). lia.
  - rewrite <- !E by (try assumption; apply H, Hi). apply S; exact Hi.
Qed.
Theorem equal_words {F} {Fo : FOps F} t s (f : list F -> res (list F)) x y :
  symmetric_under t s f -> length x = t -> rearrange t s x = x -> f x = Ok y -> rearrange t s y = y.
Proof. intros S Hx Ex Hy. destruct (S x Hx) as (y' & A & _ & B). rewrite Ex in B. congruence. Qed.
