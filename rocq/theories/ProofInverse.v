(** * ProofInverse: the rounds run backwards undo the permutations (C89) *)
From Verif Require Import Base Field Spec LinAlg FieldPow Bij SpecPoseidon2 SpecPoseidon SpecGmimc SpecNeptune SpecInverse ModelUtils ModelPoseidon2 ModelPoseidon ModelGmimc ModelNeptune.
From Verif Require Import ModelFields ModelInstances SpecInstances Limbs Fp ProofInstances ProofKats.
From Verif Require ProofPoseidon ProofPoseidon2 ProofPoseidon2Lin ProofPoseidon2Bij ProofPoseidonFin ProofGmimc ProofNeptune ProofNeptuneFin ProofNeptuneBij.
Local Open Scope nat_scope.

Section Linv.
  Context {F : Type}.
  (** g is the inverse of f on vectors of length t *)
  Definition linv (t : nat) (f g : list F -> list F) : Prop :=
    (forall x, length x = t -> length (f x) = t /\ g (f x) = x) /\ (forall y, length y = t -> length (g y) = t /\ f (g y) = y).

  Lemma linv_comp t f g f' g' : linv t f g -> linv t f' g' -> linv t (fun x => f' (f x)) (fun y => g (g' y)).
  Proof.
    intros [A B] [A' B']. split.
    - intros x Hx. destruct (A x Hx) as [L E]. destruct (A' _ L) as [L' E']. rewrite E'. auto.
    - intros y Hy. destruct (B' y Hy) as [L E]. destruct (B _ L) as [L' E']. rewrite E'. auto.
  Qed.
  Lemma linv_sym t f g : linv t f g -> linv t g f.
  Proof. intros [A B]. split; assumption. Qed.
  Lemma linv_fold t {B} (f g : list F -> B -> list F) l : (forall b, In b l -> linv t (fun s => f s b) (fun s => g s b)) ->
    linv t (fun s => fold_left f l s) (fun s => fold_left g (rev l) s).
  Proof.
    induction l as [|b l IH]; intros H; [split; auto|]. destruct (H b (or_introl eq_refl)) as [A A'].
    destruct (IH (fun c Hc => H c (or_intror Hc))) as [C C']. cbn [rev fold_left]. split.
    - intros x Hx. destruct (A x Hx) as [L E]. destruct (C _ L) as [L' E']. split; [exact L'|]. rewrite fold_left_app, E'. exact E.
    - intros y Hy. rewrite fold_left_app. cbn [fold_left]. destruct (C' y Hy) as [L E]. destruct (A' _ L) as [L' E']. split; [exact L'|]. rewrite E'. exact E.
  Qed.
  Lemma linv_pointwise t (d : F) (h k : nat -> F -> F) : (forall i a, i < t -> k i (h i a) = a /\ h i (k i a) = a) ->
    linv t (fun x => map (fun i => h i (nth i x d)) (seq 0 t)) (fun x => map (fun i => k i (nth i x d)) (seq 0 t)).
  Proof.
    intros H. split; intros x Hx; (split; [rewrite map_length, seq_length; reflexivity|]);
      (apply (list_ext d); [rewrite map_length, seq_length; auto|]); intros i Hi; rewrite map_length, seq_length in Hi;
      rewrite nth_map_seq by exact Hi; rewrite nth_map_seq by exact Hi; apply H; exact Hi.
  Qed.
  Lemma linv_ext t f g f' g' : linv t f g -> (forall x, length x = t -> f x = f' x) -> (forall x, length x = t -> g x = g' x) -> linv t f' g'.
  Proof.
    intros [A B] E E'. split.
    - intros x Hx. destruct (A x Hx) as [L Q]. rewrite <- (E x Hx). rewrite <- E' by exact L. auto.
    - intros x Hx. destruct (B x Hx) as [L Q]. rewrite <- (E' x Hx). rewrite <- E by exact L. auto.
  Qed.
  Lemma linv_undone t f g (m : list F -> res (list F)) : linv t f g -> (forall x, length x = t -> m x = Ok (f x)) -> undone_by t m g.
  Proof.
    intros [A B] E. split; [intros x Hx; exists (f x); split; [apply E; exact Hx|apply A; exact Hx]|]. split; [intros y Hy; apply B; exact Hy|]. intros x y Hx Hy. rewrite E by exact Hx. split.
    - intros Q. injection Q as <-. apply A; exact Hx.
    - intros <-. f_equal. apply B; exact Hy.
  Qed.

  Context {Fo : FOps F} (HF : is_field Fo).
  Lemma linv_mat t A B : is_inverse t A B -> linv t (mat_apply t t A) (mat_apply t t B).
  Proof.
    intros [H1 H2]. split; intros x Hx; (split; [apply mat_apply_length|]); apply (mat_apply_inverse HF); assumption.
  Qed.
End Linv.

Section Pow.
  Context {F : Type} {Fo : FOps F} {p : Z} (HP : is_prime_field Fo p).
  Let HF := prime_field_is_field HP.
  Add Ring FringInv : (ff_ring _ HF).

  Lemma pow_undo d e x : d <> 0 -> inverse_exponent p d e -> fpow (fpow x d) e = x /\ fpow (fpow x e) d = x.
  Proof.
    intros Hd [He H]. rewrite <- !(fpow_mul HF). rewrite (Nat.mul_comm e d).
    assert (G : fpow x (d * e) = x); [|split; exact G].
    pose proof (pf_p_ge_2 HP) as Hp.
    destruct (feq_dec HF x f0) as [-> | N]; [apply (fpow_0 HF); nia|].
    set (k := Z.to_nat ((Z.of_nat d * Z.of_nat e - 1) / (p - 1))).
    assert (E : d * e = 1 + Z.to_nat (p - 1) * k).
    { assert (M : ((Z.of_nat d * Z.of_nat e - 1) mod (p - 1) = 0)%Z).
      { rewrite Zminus_mod, H, <- Zminus_mod, Z.sub_diag. apply Z.mod_0_l. lia. }
      assert (D := Z.div_mod (Z.of_nat d * Z.of_nat e - 1) (p - 1) ltac:(lia)). rewrite M in D.
      assert (P : (0 <= (Z.of_nat d * Z.of_nat e - 1) / (p - 1))%Z) by (apply Z.div_pos; nia).
      apply Nat2Z.inj. rewrite Nat2Z.inj_add, !Nat2Z.inj_mul. unfold k. rewrite !Z2Nat.id by lia. lia. }
    rewrite E, (fpow_add HF), (fpow_mul HF), fermat by assumption. rewrite (fpow_1 HF). cbn [fpow]. ring.
  Qed.

  Definition fullc t d (c x : list F) : list F := map (fun i => fpow (fadd (nth i x f0) (nth i c f0)) d) (seq 0 t).
  Lemma unfull_linv t d e A B c : d <> 0 -> inverse_exponent p d e -> is_inverse t A B ->
    linv t (fun x => mat_apply t t A (fullc t d c x)) (unfull t e B c).
  Proof.
    intros Hd He HI.
    apply (linv_comp t (fullc t d c) (fun u => map (fun i => fsub (fpow (nth i u f0) e) (nth i c f0)) (seq 0 t)) (mat_apply t t A) (mat_apply t t B));
      [|apply (linv_mat HF); exact HI].
    apply (linv_pointwise t f0 (fun i a => fpow (fadd a (nth i c f0)) d) (fun i a => fsub (fpow a e) (nth i c f0))).
    intros i a Hi. split.
    - rewrite (proj1 (pow_undo d e _ Hd He)). ring.
    - replace (fadd (fsub (fpow a e) (nth i c f0)) (nth i c f0)) with (fpow a e) by ring. apply (pow_undo d e _ Hd He).
  Qed.
  Lemma p2_unpartial_linv t d e A B c : d <> 0 -> inverse_exponent p d e -> is_inverse t A B ->
    linv t (fun x => mat_apply t t A (map (fun i => if i =? 0 then fpow (fadd (nth 0 x f0) (nth 0 c f0)) d else nth i x f0) (seq 0 t))) (p2_unpartial t e B c).
  Proof.
    intros Hd He HI.
    apply (linv_comp t (fun x => map (fun i => if i =? 0 then fpow (fadd (nth 0 x f0) (nth 0 c f0)) d else nth i x f0) (seq 0 t))
      (fun u => map (fun i => if i =? 0 then fsub (fpow (nth 0 u f0) e) (nth 0 c f0) else nth i u f0) (seq 0 t)) (mat_apply t t A) (mat_apply t t B));
      [|apply (linv_mat HF); exact HI].
    eapply (linv_ext t); [apply (linv_pointwise t f0 (fun i a => if i =? 0 then fpow (fadd a (nth 0 c f0)) d else a) (fun i a => if i =? 0 then fsub (fpow a e) (nth 0 c f0) else a))| |].
    - intros i a Hi. destruct (i =? 0); [|auto]. split.
      + rewrite (proj1 (pow_undo d e _ Hd He)). ring.
      + replace (fadd (fsub (fpow a e) (nth 0 c f0)) (nth 0 c f0)) with (fpow a e) by ring. apply (pow_undo d e _ Hd He).
    - intros x Hx. apply map_ext_in. intros [|i] _; reflexivity.
    - intros x Hx. apply map_ext_in. intros [|i] _; reflexivity.
  Qed.
  Lemma ps_unpartial_linv t d e A B c : d <> 0 -> inverse_exponent p d e -> is_inverse t A B -> linv t (ps_ref_partial t d A c) (ps_unpartial t e B c).
  Proof.
    intros Hd He HI.
    apply (linv_comp t (fun x => map (fun i => let y := fadd (nth i x f0) (nth i c f0) in if i =? 0 then fpow y d else y) (seq 0 t))
      (fun u => map (fun i => fsub (if i =? 0 then fpow (nth 0 u f0) e else nth i u f0) (nth i c f0)) (seq 0 t)) (mat_apply t t A) (mat_apply t t B));
      [|apply (linv_mat HF); exact HI].
    eapply (linv_ext t); [apply (linv_pointwise t f0 (fun i a => let y := fadd a (nth i c f0) in if i =? 0 then fpow y d else y) (fun i a => fsub (if i =? 0 then fpow a e else a) (nth i c f0)))| |].
    - intros i a Hi. cbv zeta. destruct (i =? 0); split; try ring.
      + rewrite (proj1 (pow_undo d e _ Hd He)). ring.
      + replace (fadd (fsub (fpow a e) (nth i c f0)) (nth i c f0)) with (fpow a e) by ring. apply (pow_undo d e _ Hd He).
    - intros x Hx. reflexivity.
    - intros x Hx. apply map_ext_in. intros [|i] _; reflexivity.
  Qed.

  Lemma p2_undo_linv t d e rf rp (diag : list F) EI II (rc : list (list F)) : d <> 0 -> inverse_exponent p d e ->
    is_inverse t (ext_matrix t) EI -> (rp = 0 \/ is_inverse t (int_matrix t diag) II) ->
    linv t (p2_ref t d rf rp diag rc) (p2_undo t e rf rp EI II rc).
  Proof.
    intros Hd He HE HI. unfold p2_ref, p2_undo.
    apply (linv_comp t (fun x => fold_left (fun s r => p2_ref_partial t d diag (nth r rc []) s) (seq (rf / 2) rp) (fold_left (fun s r => p2_ref_full t d (nth r rc []) s) (seq 0 (rf / 2)) (mat_apply t t (ext_matrix t) x)))
      (fun s => mat_apply t t EI (fold_left (fun s r => unfull t e EI (nth r rc []) s) (rev (seq 0 (rf / 2))) (fold_left (fun s r => p2_unpartial t e II (nth r rc []) s) (rev (seq (rf / 2) rp)) s)))
      (fun s => fold_left (fun s r => p2_ref_full t d (nth r rc []) s) (seq (rf / 2 + rp) (rf / 2)) s)
      (fun s => fold_left (fun s r => unfull t e EI (nth r rc []) s) (rev (seq (rf / 2 + rp) (rf / 2))) s)).
    2:{ apply (linv_fold t (fun s r => p2_ref_full t d (nth r rc []) s) (fun s r => unfull t e EI (nth r rc []) s)). intros r _. apply unfull_linv; assumption. }
    apply (linv_comp t (fun x => fold_left (fun s r => p2_ref_full t d (nth r rc []) s) (seq 0 (rf / 2)) (mat_apply t t (ext_matrix t) x))
      (fun s => mat_apply t t EI (fold_left (fun s r => unfull t e EI (nth r rc []) s) (rev (seq 0 (rf / 2))) s))
      (fun s => fold_left (fun s r => p2_ref_partial t d diag (nth r rc []) s) (seq (rf / 2) rp) s)
      (fun s => fold_left (fun s r => p2_unpartial t e II (nth r rc []) s) (rev (seq (rf / 2) rp)) s)).
    2:{ apply (linv_fold t (fun s r => p2_ref_partial t d diag (nth r rc []) s) (fun s r => p2_unpartial t e II (nth r rc []) s)). intros r Hr.
        apply p2_unpartial_linv; try assumption. destruct HI as [-> | HI]; [destruct Hr|exact HI]. }
    apply (linv_comp t (mat_apply t t (ext_matrix t)) (mat_apply t t EI)
      (fun s => fold_left (fun s r => p2_ref_full t d (nth r rc []) s) (seq 0 (rf / 2)) s)
      (fun s => fold_left (fun s r => unfull t e EI (nth r rc []) s) (rev (seq 0 (rf / 2))) s)).
    - apply (linv_mat HF); exact HE.
    - apply (linv_fold t (fun s r => p2_ref_full t d (nth r rc []) s) (fun s r => unfull t e EI (nth r rc []) s)). intros r _. apply unfull_linv; assumption.
  Qed.

  Theorem p2_inverse dbg t d e rf rp (diag : list F) (mi rc : list (list F)) P EI II :
    p2_new dbg t d rf rp diag mi rc = Ok P -> (N.of_nat rf + N.of_nat rp < usize_mod)%N ->
    p2_width t -> sbox_degree d -> p2_data_ok t rf rp diag rc -> inverse_exponent p d e ->
    is_inverse t (ext_matrix t) EI -> (rp = 0 \/ is_inverse t (int_matrix t diag) II) ->
    undone_by t (p2_permutation dbg P) (p2_undo t e rf rp EI II rc).
  Proof.
    intros H Hov Hw Hd Hdat He HE HI. eapply linv_undone; [apply (p2_undo_linv t d e rf rp diag EI II rc); try assumption|].
    - unfold sbox_degree in Hd; cbn in Hd. lia.
    - intros x Hx. apply (ProofPoseidon2.p2_permutation_ref HF dbg t d rf rp diag mi rc P x); assumption.
  Qed.

  Lemma ps_undo_linv t d e rf rp A B (rc : list (list F)) : d <> 0 -> inverse_exponent p d e -> is_inverse t A B ->
    linv t (ps_ref t d rf rp A rc) (ps_undo t e rf rp B rc).
  Proof.
    intros Hd He HE. unfold ps_ref, ps_undo.
    apply (linv_comp t (fun x => fold_left (fun s r => ps_ref_partial t d A (nth r rc []) s) (seq (rf / 2) rp) (fold_left (fun s r => ps_ref_full t d A (nth r rc []) s) (seq 0 (rf / 2)) x))
      (fun s => fold_left (fun s r => unfull t e B (nth r rc []) s) (rev (seq 0 (rf / 2))) (fold_left (fun s r => ps_unpartial t e B (nth r rc []) s) (rev (seq (rf / 2) rp)) s))
      (fun s => fold_left (fun s r => ps_ref_full t d A (nth r rc []) s) (seq (rf / 2 + rp) (rf / 2)) s)
      (fun s => fold_left (fun s r => unfull t e B (nth r rc []) s) (rev (seq (rf / 2 + rp) (rf / 2))) s)).
    2:{ apply (linv_fold t (fun s r => ps_ref_full t d A (nth r rc []) s) (fun s r => unfull t e B (nth r rc []) s)). intros r _. apply unfull_linv; assumption. }
    apply (linv_comp t (fun x => fold_left (fun s r => ps_ref_full t d A (nth r rc []) s) (seq 0 (rf / 2)) x)
      (fun s => fold_left (fun s r => unfull t e B (nth r rc []) s) (rev (seq 0 (rf / 2))) s)
      (fun s => fold_left (fun s r => ps_ref_partial t d A (nth r rc []) s) (seq (rf / 2) rp) s)
      (fun s => fold_left (fun s r => ps_unpartial t e B (nth r rc []) s) (rev (seq (rf / 2) rp)) s)).
    - apply (linv_fold t (fun s r => ps_ref_full t d A (nth r rc []) s) (fun s r => unfull t e B (nth r rc []) s)). intros r _. apply unfull_linv; assumption.
    - apply (linv_fold t (fun s r => ps_ref_partial t d A (nth r rc []) s) (fun s r => ps_unpartial t e B (nth r rc []) s)). intros r Hr. apply ps_unpartial_linv; assumption.
  Qed.
  Theorem ps_inverse dbg t d e rf rp (mds rc : list (list F)) P B :
    ps_new dbg t d rf rp mds rc = Ok P -> (N.of_nat rf + N.of_nat rp < usize_mod)%N -> dims t t mds ->
    (forall r, r < rf + rp -> t <= length (nth r rc [])) -> inverse_exponent p d e -> is_inverse t (entry mds) B ->
    undone_by t (ps_permutation dbg P) (ps_undo t e rf rp B rc) /\ undone_by t (ps_permutation_not_opt dbg P) (ps_undo t e rf rp B rc).
  Proof.
    intros H Hov Hdm HR He HB.
    assert (Hd : d <> 0). { pose proof (ProofPoseidon.ps_new_ok _ _ _ _ _ _ _ _ H Hov) as [Hs _]. unfold sbox_degree in Hs; cbn in Hs. lia. }
    assert (L := ps_undo_linv t d e rf rp (entry mds) B rc Hd He HB).
    split; (eapply linv_undone; [exact L|]); intros x Hx; apply (ProofPoseidonFin.ps_permutation_ref HF dbg t d rf rp mds rc P x H Hov Hdm HR); exact Hx.
  Qed.
End Pow.

Lemma root_exponent_ok p d : sbox_degree d -> (1 < p)%Z -> Z.gcd (Z.of_nat d) (p - 1) = 1%Z ->
  inverse_exponent p d (Z.to_nat (root_exponent p (Z.of_nat d))).
Proof.
  intros Hd Hp Hg. unfold root_exponent. destruct (find _ _) as [k|] eqn:E.
  - apply find_some in E. destruct E as [Hk E]. apply Z.eqb_eq in E.
    assert (D : (0 < Z.of_nat d)%Z) by (unfold sbox_degree in Hd; cbn in Hd; lia).
    assert (K : (1 <= k)%Z) by (cbn in Hk; lia).
    assert (Q := Z.div_mod (k * (p - 1) + 1) (Z.of_nat d) ltac:(lia)). rewrite E, Z.add_0_r in Q.
    set (e := ((k * (p - 1) + 1) / Z.of_nat d)%Z) in *. clearbody e.
    assert (E1 : (1 <= e)%Z) by nia. split; [lia|]. rewrite Z2Nat.id by lia. rewrite <- Q, Z.add_comm. apply Z.mod_add. lia.
  - exfalso. assert (N := find_none _ _ E). clear E. cbv beta in N.
    assert (C : forall k, In k [1; 2; 3; 4; 5; 6]%Z -> ((k * (p - 1) + 1) mod Z.of_nat d <> 0)%Z) by (intros k Hk; apply Z.eqb_neq, N; exact Hk).
    clear N. assert (G : ((p - 1) mod Z.of_nat d <> 0)%Z).
    { intros M. assert (D : (Z.of_nat d | p - 1)%Z) by (apply Z.mod_divide; [unfold sbox_degree in Hd; cbn in Hd; lia|exact M]).
      apply Z.divide_gcd_iff in D; [|lia]. unfold sbox_degree in Hd; cbn in Hd. lia. }
    pose proof (C 1%Z ltac:(cbn; tauto)). pose proof (C 2%Z ltac:(cbn; tauto)). pose proof (C 3%Z ltac:(cbn; tauto)).
    pose proof (C 4%Z ltac:(cbn; tauto)). pose proof (C 5%Z ltac:(cbn; tauto)). pose proof (C 6%Z ltac:(cbn; tauto)). clear C Hg.
    set (m := (p - 1)%Z) in *. clearbody m. unfold sbox_degree in Hd. cbn [In] in Hd.
    destruct Hd as [Hd | [Hd | [Hd | []]]]; rewrite <- Hd in *; clear Hd; cbn [Z.of_nat Pos.of_succ_nat Pos.succ] in *; Z.div_mod_to_equations; lia.
Qed.

Section IntInv.
  Context {F : Type} {Fo : FOps F} (HF : is_field Fo).
  Add Ring FringInvI : (ff_ring _ HF).
  Lemma sumn_if n k (a : F) : k < n -> sumn n (fun i => if i =? k then a else f0) = a.
  Proof.
    intros Hk. rewrite (sumn_single HF n k); [rewrite Nat.eqb_refl; reflexivity|exact Hk|]. intros i _ N. destruct (Nat.eqb_spec i k); [contradiction|reflexivity].
  Qed.
  Lemma int_inverse_ok t (diag : list F) : 4 <= t -> (forall i, i < t -> nth i diag f0 <> f0) ->
    fadd f1 (sumn t (fun i => finv (nth i diag f0))) <> f0 -> is_inverse t (int_matrix t diag) (int_inverse t diag).
  Proof.
    intros Ht Hd Hs. set (v := fun k => finv (nth k diag f0)). set (S := sumn t v). change (fadd f1 S <> f0) in Hs.
    set (s := finv (fadd f1 S)). assert (Es : fmul s (fadd f1 S) = f1) by (apply (ff_inv _ HF); exact Hs).
    assert (Ev : forall i, i < t -> fmul (v i) (nth i diag f0) = f1) by (intros i Hi; apply (ff_inv _ HF), Hd, Hi).
    assert (A : forall i j, int_matrix t diag i j = fadd (if i =? j then nth i diag f0 else f0) f1).
    { intros i j. unfold int_matrix. destruct (Nat.ltb_spec t 4); [lia|]. destruct (i =? j); ring. }
    assert (B : forall i j, int_inverse t diag i j = fsub (if i =? j then v i else f0) (fmul (fmul (v i) (v j)) s)) by reflexivity.
    split; intros i j Hi Hj; unfold mat_mul, mat_id.
    - transitivity (sumn t (fun k => fadd (if k =? i then fsub (if i =? j then f1 else f0) (fmul (v j) s) else f0)
                          (fadd (if k =? j then v j else f0) (fmul (fsub f0 (fmul (v j) s)) (v k))))).
      { apply sumn_ext. intros k Hk. rewrite A, B. destruct (Nat.eqb_spec i k) as [<-|N].
        - rewrite Nat.eqb_refl. pose proof (Ev i Hi) as E. destruct (Nat.eqb_spec i j) as [->|]; ring [E].
        - destruct (Nat.eqb_spec k i); [congruence|]. destruct (Nat.eqb_spec k j) as [->|]; ring. }
      rewrite !(sumn_add HF), (sumn_mul_l HF), !sumn_if by assumption. fold S. destruct (i =? j).
      + transitivity (fadd (fsub f1 (fmul (v j) (fmul s (fadd f1 S)))) (v j)); [ring|rewrite Es; ring].
      + transitivity (fadd (fsub f0 (fmul (v j) (fmul s (fadd f1 S)))) (v j)); [ring|rewrite Es; ring].
    - transitivity (sumn t (fun k => fadd (if k =? j then fsub (if i =? j then f1 else f0) (fmul (v i) s) else f0)
                          (fadd (if k =? i then v i else f0) (fmul (fsub f0 (fmul (v i) s)) (v k))))).
      { apply sumn_ext. intros k Hk. rewrite A, B. destruct (Nat.eqb_spec k j) as [->|N].
        - pose proof (Ev j Hj) as E. destruct (Nat.eqb_spec i j) as [->|]; [rewrite Nat.eqb_refl; ring [E]|].
          destruct (Nat.eqb_spec j i); [congruence|]. ring [E].
        - destruct (Nat.eqb_spec i k) as [->|]; [rewrite Nat.eqb_refl; ring|]. destruct (Nat.eqb_spec k i); [congruence|]. ring. }
      rewrite !(sumn_add HF), (sumn_mul_l HF), !sumn_if by assumption. fold S. destruct (i =? j).
      + transitivity (fadd (fsub f1 (fmul (v i) (fmul s (fadd f1 S)))) (v i)); [ring|rewrite Es; ring].
      + transitivity (fadd (fsub f0 (fmul (v i) (fmul s (fadd f1 S)))) (v i)); [ring|rewrite Es; ring].
  Qed.

  (** ** GMiMC *)
  Lemma gm_unround_linv t d (c : F) : linv t (gm_ref_round t d c) (gm_unround t d c).
  Proof.
    split; intros x Hx; (split; [unfold gm_ref_round, gm_unround; rewrite map_length, seq_length; reflexivity|]);
      (apply (list_ext f0); [unfold gm_ref_round, gm_unround; rewrite map_length, seq_length; congruence|]); intros i Hi;
      unfold gm_ref_round, gm_unround in Hi; rewrite map_length, seq_length in Hi;
      unfold gm_ref_round, gm_unround; rewrite !nth_map_seq by lia; cbn [Nat.eqb]; (destruct (Nat.eqb_spec i 0) as [->|]; [reflexivity|ring]).
  Qed.
  Lemma gm_unrotate_linv t : 1 <= t -> linv t (@gm_ref_rotate F Fo t) (gm_unrotate t).
  Proof.
    intros Ht. unfold gm_ref_rotate, gm_unrotate.
    split; intros x Hx; (split; [rewrite map_length, seq_length; reflexivity|]);
      (apply (list_ext f0); [rewrite map_length, seq_length; congruence|]); intros i Hi; rewrite map_length, seq_length in Hi.
    - rewrite (nth_map_seq _ f0 t i) by lia. rewrite (nth_map_seq _ f0 t 0) by lia. destruct (Nat.eqb_spec (S i) t) as [E|N].
      + f_equal. lia.
      + rewrite nth_map_seq by lia. reflexivity.
    - rewrite nth_map_seq by lia. destruct i as [|i].
      + rewrite nth_map_seq by lia. replace (S (t - 1)) with t by lia. rewrite Nat.eqb_refl. reflexivity.
      + rewrite nth_map_seq by lia. destruct (Nat.eqb_spec (S i) t); [lia|reflexivity].
  Qed.
  Theorem gm_inverse dbg rng t d rounds (P : GmimcParams F) :
    gm_new rng t d rounds = Ok P -> 1 <= t -> 1 <= rounds ->
    undone_by t (gm_permutation dbg P) (gm_undo t d rounds (map rng (seq 0 rounds))) /\
    undone_by t (gm_permutation_not_opt dbg P) (gm_undo t d rounds (map rng (seq 0 rounds))).
  Proof.
    intros H Ht Hr. set (rc := map rng (seq 0 rounds)).
    assert (L : linv t (gm_ref t d rounds rc) (gm_undo t d rounds rc)).
    { unfold gm_ref, gm_undo.
      apply (linv_comp t (fun x => fold_left (fun s r => gm_ref_rotate t (gm_ref_round t d (nth r rc f0) s)) (seq 0 (rounds - 1)) x)
        (fun y => fold_left (fun s r => gm_unround t d (nth r rc f0) (gm_unrotate t s)) (rev (seq 0 (rounds - 1))) y)
        (gm_ref_round t d (nth (rounds - 1) rc f0)) (gm_unround t d (nth (rounds - 1) rc f0))); [|apply gm_unround_linv].
      apply (linv_fold t (fun s r => gm_ref_rotate t (gm_ref_round t d (nth r rc f0) s)) (fun s r => gm_unround t d (nth r rc f0) (gm_unrotate t s))).
      intros r _. apply (linv_comp t (gm_ref_round t d (nth r rc f0)) (gm_unround t d (nth r rc f0)) (gm_ref_rotate t) (gm_unrotate t));
        [apply gm_unround_linv|apply gm_unrotate_linv; exact Ht]. }
    split; (eapply linv_undone; [exact L|]); intros x Hx; apply (ProofGmimc.gm_reference HF dbg rng t d rounds P x H Hx Ht Hr).
  Qed.

  (** ** Neptune *)
  Lemma unpair_eq i5 ga y1 y2 : fmul i5 (fnat 5) = (f1 : F) -> np_unpair i5 ga y1 y2 = ProofNeptune.pair_inv i5 ga y1 y2.
  Proof.
    intros _. unfold np_unpair, ProofNeptune.pair_inv. cbv zeta. set (w := fadd (fsub y1 y2) ga).
    set (z := fmul i5 (fadd (fsub y1 (fmul w w)) _)). set (z' := fmul i5 (fsub (fadd _ _) _)). assert (E : z' = z) by (unfold z, z'; ring).
    rewrite E. apply f_equal2; ring.
  Qed.
End IntInv.

Section NpInv.
  Context {F : Type} {Fo : FOps F} {p : Z} (HP : is_prime_field Fo p).
  Let HF := prime_field_is_field HP.
  Add Ring FringInvN : (ff_ring _ HF).

  Lemma unadd_linv t (c : list F) : linv t (fun x => map (fun i => fadd (nth i x f0) (nth i c f0)) (seq 0 t)) (unadd t c).
  Proof.
    apply (linv_pointwise t f0 (fun i a => fadd a (nth i c f0)) (fun i a => fsub a (nth i c f0))). intros i a _. split; ring.
  Qed.
  Lemma unsbox_linv t i5 ga : t mod 2 = 0 -> fmul i5 (fnat 5) = (f1 : F) -> linv t (np_ref_sbox t (f1, f1, ga)) (np_unsbox t i5 ga).
  Proof.
    intros Hev H5. unfold np_unsbox. split; intros x Hx.
    - split; [unfold np_ref_sbox; rewrite map_length, seq_length; reflexivity|].
      apply (ProofNeptuneBij.pairs_compose t (np_pair f1 f1 ga) (np_unpair i5 ga) x Hev Hx). intros a b. rewrite (unpair_eq HF) by exact H5. apply (ProofNeptune.pair_inv_l HF). exact H5.
    - split; [rewrite map_length, seq_length; reflexivity|].
      apply (ProofNeptuneBij.pairs_compose t (np_unpair i5 ga) (np_pair f1 f1 ga) x Hev Hx). intros a b. rewrite (unpair_eq HF) by exact H5. apply (ProofNeptune.pair_inv_r HF). exact H5.
  Qed.
  Lemma unext_linv t i5 ga A B c : t mod 2 = 0 -> fmul i5 (fnat 5) = (f1 : F) -> is_inverse t A B -> linv t (np_ref_ext t (f1, f1, ga) A c) (np_unext t i5 ga B c).
  Proof.
    intros Hev H5 HI. unfold np_ref_ext, np_unext.
    apply (linv_comp t (fun x => mat_apply t t A (np_ref_sbox t (f1, f1, ga) x)) (fun y => np_unsbox t i5 ga (mat_apply t t B y))
      (fun x => map (fun i => fadd (nth i x f0) (nth i c f0)) (seq 0 t)) (unadd t c)); [|apply unadd_linv].
    apply (linv_comp t (np_ref_sbox t (f1, f1, ga)) (np_unsbox t i5 ga)); [apply unsbox_linv; assumption|apply (linv_mat HF); exact HI].
  Qed.
  Lemma unint_linv t d e A B c : d <> 0 -> inverse_exponent p d e -> is_inverse t A B -> linv t (np_ref_int t d A c) (np_unint t e B c).
  Proof.
    intros Hd He HI. unfold np_ref_int, np_unint.
    apply (linv_comp t (fun x => mat_apply t t A (map (fun i => if i =? 0 then fpow (nth 0 x f0) d else nth i x f0) (seq 0 t)))
      (fun y => map (fun i => if i =? 0 then fpow (nth 0 (mat_apply t t B y) f0) e else nth i (mat_apply t t B y) f0) (seq 0 t))
      (fun x => map (fun i => fadd (nth i x f0) (nth i c f0)) (seq 0 t)) (unadd t c)); [|apply unadd_linv].
    apply (linv_comp t (fun x => map (fun i => if i =? 0 then fpow (nth 0 x f0) d else nth i x f0) (seq 0 t))
      (fun u => map (fun i => if i =? 0 then fpow (nth 0 u f0) e else nth i u f0) (seq 0 t)) (mat_apply t t A) (mat_apply t t B));
      [|apply (linv_mat HF); exact HI].
    eapply (linv_ext t); [apply (linv_pointwise t f0 (fun i a => if i =? 0 then fpow a d else a) (fun i a => if i =? 0 then fpow a e else a))| |].
    - intros i a Hi. destruct (i =? 0); [|auto]. apply (pow_undo HP); assumption.
    - intros x Hx. apply map_ext_in. intros [|i] _; reflexivity.
    - intros x Hx. apply map_ext_in. intros [|i] _; reflexivity.
  Qed.
  Lemma np_undo_linv t d e rf rp i5 ga ME MI EI II (rc : list (list F)) : t mod 2 = 0 -> d <> 0 ->
    is_inverse t ME EI -> (rf = 0 \/ fmul i5 (fnat 5) = (f1 : F)) -> (rp = 0 \/ (is_inverse t MI II /\ inverse_exponent p d e)) -> rf mod 2 = 0 ->
    linv t (np_ref t d rf rp (f1, f1, ga) ME MI rc) (np_undo t e rf rp i5 ga EI II rc).
  Proof.
    intros Hev Hd HE H5 HI Hrf. unfold np_ref, np_undo.
    assert (X : forall a, linv t (fun s => fold_left (fun s r => np_ref_ext t (f1, f1, ga) ME (nth r rc []) s) (seq a (rf / 2)) s)
      (fun s => fold_left (fun s r => np_unext t i5 ga EI (nth r rc []) s) (rev (seq a (rf / 2))) s)).
    { intros a. apply (linv_fold t (fun s r => np_ref_ext t (f1, f1, ga) ME (nth r rc []) s) (fun s r => np_unext t i5 ga EI (nth r rc []) s)). intros r Hr.
      apply unext_linv; try assumption. destruct H5 as [-> | H5]; [destruct Hr|exact H5]. }
    apply (linv_comp t (fun x => fold_left (fun s r => np_ref_int t d MI (nth r rc []) s) (seq (rf / 2) rp) (fold_left (fun s r => np_ref_ext t (f1, f1, ga) ME (nth r rc []) s) (seq 0 (rf / 2)) (mat_apply t t ME x)))
      (fun s => mat_apply t t EI (fold_left (fun s r => np_unext t i5 ga EI (nth r rc []) s) (rev (seq 0 (rf / 2))) (fold_left (fun s r => np_unint t e II (nth r rc []) s) (rev (seq (rf / 2) rp)) s)))
      (fun s => fold_left (fun s r => np_ref_ext t (f1, f1, ga) ME (nth r rc []) s) (seq (rf / 2 + rp) (rf / 2)) s)
      (fun s => fold_left (fun s r => np_unext t i5 ga EI (nth r rc []) s) (rev (seq (rf / 2 + rp) (rf / 2))) s)); [|apply X].
    apply (linv_comp t (fun x => fold_left (fun s r => np_ref_ext t (f1, f1, ga) ME (nth r rc []) s) (seq 0 (rf / 2)) (mat_apply t t ME x))
      (fun s => mat_apply t t EI (fold_left (fun s r => np_unext t i5 ga EI (nth r rc []) s) (rev (seq 0 (rf / 2))) s))
      (fun s => fold_left (fun s r => np_ref_int t d MI (nth r rc []) s) (seq (rf / 2) rp) s)
      (fun s => fold_left (fun s r => np_unint t e II (nth r rc []) s) (rev (seq (rf / 2) rp)) s)).
    2:{ apply (linv_fold t (fun s r => np_ref_int t d MI (nth r rc []) s) (fun s r => np_unint t e II (nth r rc []) s)). intros r Hr.
        destruct HI as [-> | [HI He]]; [destruct Hr|]. apply unint_linv; assumption. }
    apply (linv_comp t (mat_apply t t ME) (mat_apply t t EI)
      (fun s => fold_left (fun s r => np_ref_ext t (f1, f1, ga) ME (nth r rc []) s) (seq 0 (rf / 2)) s)
      (fun s => fold_left (fun s r => np_unext t i5 ga EI (nth r rc []) s) (rev (seq 0 (rf / 2))) s)); [apply (linv_mat HF); exact HE|apply X].
  Qed.
  Theorem np_inverse dbg fuel rng t d e rf rp (P : NeptuneParams F) i5 EI II :
    np_new dbg fuel rng t d rf rp = Ok P -> (N.of_nat rf + N.of_nat rp < usize_mod)%N -> 1 <= t \/ rp = 0 ->
    is_inverse t (entry (np_m_e P)) EI -> (rf = 0 \/ fmul i5 (fnat 5) = (f1 : F)) ->
    (rp = 0 \/ (is_inverse t (np_int_matrix (fun i => fadd (nth i (np_mu P) f0) f1)) II /\ inverse_exponent p d e)) ->
    undone_by t (np_permutation dbg P) (np_undo t e rf rp i5 (snd (np_abc P)) EI II (np_rc P)).
  Proof.
    intros H Hov Ht HE H5 HI. destruct (ProofNeptuneFin.np_new_contents HF _ _ _ _ _ _ _ _ H Hov) as [(Hd & Hrf & Hev) (_ & _ & _ & _ & _ & _ & _ & _ & _ & [ga Ea] & _)].
    eapply linv_undone.
    - apply (np_undo_linv t d e rf rp i5 (snd (np_abc P)) (entry (np_m_e P)) (np_int_matrix (fun i => fadd (nth i (np_mu P) f0) f1)) EI II (np_rc P)); try assumption.
      cbn in Hd. lia.
    - intros x Hx. rewrite (proj1 (ProofNeptuneBij.np_permutation_reference HP dbg fuel rng t d rf rp P x H Hov) Hx Ht). rewrite Ea. reflexivity.
  Qed.
End NpInv.

(** ** the shipped instances *)
Theorem p2_shipped_inverse I : In I p2_instances ->
  forall F (Fo : FOps F), is_prime_field Fo (qi_p I) -> forall dbg,
  exists Q EI II, p2_instance_params dbg I = Ok Q /\
    is_inverse (qi_t I) (ext_matrix (F := F) (qi_t I)) EI /\ is_inverse (qi_t I) (int_matrix (qi_t I) (map f_of_Z (qi_diag I))) II /\
    undone_by (qi_t I) (p2_permutation dbg Q)
      (p2_undo (qi_t I) (Z.to_nat (root_exponent (qi_p I) (Z.of_nat (qi_d I)))) (qi_rf I) (qi_rp I) EI II (map (map f_of_Z) (qi_rc I))).
Proof.
  intros HI F Fo HP dbg. destruct (p2_shipped_permutation I HI F Fo HP dbg) as [Q [HQ [HB _]]].
  destruct (p2_all I HI) as [P [Hok [Hpr H]]]. destruct (p2_cert_parts P Hok I H) as [Ep [H7 [Hb [HA [HC HE]]]]].
  pose proof HQ as HN. rewrite (p2_instance_residues dbg I HC Hb) in HN. destruct HA as [Hd He Hw Hp1 Hg Hov].
  pose proof (p2_consistent_data I (F := F) HC Hw He) as Hdat.
  destruct (proj1 (ProofPoseidon2Bij.p2_permutation_bijective_iff HP dbg _ _ _ _ _ _ _ Q HN Hov Hw Hd Hdat) HB) as [_ [HX [HJ | [II HJ]]]]; [lia|].
  destruct (proj2 (ProofPoseidon2Lin.ext_invertible_iff HP _ Hw) HX) as [EI HEI].
  exists Q, EI, II. split; [exact HQ|]. split; [exact HEI|]. split; [exact HJ|].
  eapply (p2_inverse HP dbg); try eassumption; [|right; exact HJ]. apply root_exponent_ok; [exact Hd|lia|exact Hg].
Qed.
Theorem ps_shipped_inverse I : In I ps_instances ->
  forall F (Fo : FOps F), is_prime_field Fo (si_p I) -> forall dbg,
  exists Q B, ps_instance_params dbg I = Ok Q /\ is_inverse (si_t I) (entry (map (map (f_of_Z (F := F))) (si_mds I))) B /\
    undone_by (si_t I) (ps_permutation dbg Q)
      (ps_undo (si_t I) (Z.to_nat (root_exponent (si_p I) (Z.of_nat (si_d I)))) (si_rf I) (si_rp I) B (map (map f_of_Z) (si_rc I))).
Proof.
  intros HI F Fo HP dbg. destruct (ps_shipped_permutation I HI) as [_ HS]. destruct (HS F Fo HP dbg) as [Q [HQ _]]. clear HS.
  destruct (ps_all I HI) as [P [Hok [Hpr H]]]. destruct (ps_cert_parts P Hok I H) as [Ep [H7 [Hb [HA [HC HE]]]]].
  pose proof HQ as HN. rewrite (ps_instance_residues dbg I HC Hb) in HN.
  pose proof (prime_field_is_field HP) as HF. destruct HA as [Hd He Hw Hp1 Hg Hov].
  assert (Hdims : dims (si_t I) (si_t I) (map (map (f_of_Z (F := F))) (si_mds I))) by (apply map_of_Z_dims, (sc_mds_shape I HC)).
  assert (Hrows : forall r, r < si_rf I + si_rp I -> length (nth r (map (map (f_of_Z (F := F))) (si_rc I)) []) = si_t I).
  { intros k Hk. apply (map_of_Z_row _ _ _ k (sc_rc_shape I HC) Hk). }
  assert (R1 : ProofPoseidon.ps_rows_ok (si_t I) (si_rf I) (si_rp I) (map (map (f_of_Z (F := F))) (si_rc I))) by (intros k Hk; rewrite Hrows by exact Hk; lia).
  destruct (proj1 (ProofPoseidonFin.ps_new_success HF dbg (si_t I) (si_d I) (si_rf I) (si_rp I) _ _ Hdims R1 ltac:(intros k Hk; rewrite Hrows by exact Hk; lia) Hov)) as [A _].
  destruct (A (ex_intro _ Q HN)) as (_ & _ & Ht & _ & HL & _).
  destruct (nonsingular_invertible HF (si_t I) _ (HL (si_t I) ltac:(lia))) as [B HB].
  exists Q, B. split; [exact HQ|]. split; [exact HB|].
  eapply (ps_inverse HP dbg); try eassumption. apply root_exponent_ok; [exact Hd|lia|exact Hg].
Qed.

(** ** preimages of the compression functions *)
Lemma preimages3 {F} {Fo : FOps F} (f : list F -> res (list F)) g a b h : undone_by 3 f g ->
  ((out <- f [a; b; f0] ;; idx out 0) = Ok h <-> exists u v, g [h; u; v] = [a; b; f0]).
Proof.
  intros [A [B C]]. destruct (A [a; b; f0] eq_refl) as [y [E L]]. rewrite E. cbn [bind].
  destruct y as [|y0 [|y1 [|y2 [|]]]]; try discriminate L. split.
  - intros Q. cbn in Q. injection Q as <-. exists y1, y2. apply (C [a; b; f0] [y0; y1; y2] eq_refl eq_refl). exact E.
  - intros [u [v Q]]. apply (C [a; b; f0] [h; u; v] eq_refl eq_refl) in Q. rewrite Q in E. injection E as -> _ _. reflexivity.
Qed.
Lemma preimages4 {F} {Fo : FOps F} (f : list F -> res (list F)) g a b h : undone_by 4 f g ->
  ((out <- f [a; b; f0; f0] ;; idx out 0) = Ok h <-> exists u v w, g [h; u; v; w] = [a; b; f0; f0]).
Proof.
  intros [A [B C]]. destruct (A [a; b; f0; f0] eq_refl) as [y [E L]]. rewrite E. cbn [bind].
  destruct y as [|y0 [|y1 [|y2 [|y3 [|]]]]]; try discriminate L. split.
  - intros Q. cbn in Q. injection Q as <-. exists y1, y2, y3. apply (C [a; b; f0; f0] [y0; y1; y2; y3] eq_refl eq_refl). exact E.
  - intros [u [v [w Q]]]. apply (C [a; b; f0; f0] [h; u; v; w] eq_refl eq_refl) in Q. rewrite Q in E. injection E as -> _ _ _. reflexivity.
Qed.
Theorem compress_preimages F (Fo : FOps F) dbg g (a b h : F) :
  (forall P, undone_by 3 (p2_permutation dbg P) g -> (p2_compress dbg P [a; b] = Ok h <-> exists u v, g [h; u; v] = [a; b; f0])) /\
  (forall P, undone_by 3 (ps_permutation dbg P) g -> (ps_compress dbg P [a; b] = Ok h <-> exists u v, g [h; u; v] = [a; b; f0])) /\
  (forall P, undone_by 3 (gm_permutation dbg P) g -> (gm_compress dbg P [a; b] = Ok h <-> exists u v, g [h; u; v] = [a; b; f0])) /\
  (forall P, undone_by 4 (np_permutation dbg P) g -> (np_compress dbg P [a; b] = Ok h <-> exists u v w, g [h; u; v; w] = [a; b; f0; f0])).
Proof.
  split; [|split; [|split]]; intros P H.
  - exact (preimages3 (p2_permutation dbg P) g a b h H).
  - exact (preimages3 (ps_permutation dbg P) g a b h H).
  - exact (preimages3 (gm_permutation dbg P) g a b h H).
  - exact (preimages4 (np_permutation dbg P) g a b h H).
Qed.
