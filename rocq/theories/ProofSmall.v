(** * ProofSmall: internal matrices with two equal diagonal entries (C63) *)
From Coq Require Import Znumtheory.
From Verif Require Import Base Field Spec SpecPoseidon SpecPoseidon2 SpecMinPoly LinAlg FieldPow Vec LinOp Elim ModelPoseidon2 ModelInstances
  ModelSubspace ModelGenerate ModelEquivalent ProofPoseidon2.
From Verif Require ProofMinPoly2 ProofReject ProofGenerate ProofKats SpecInstances.
Local Open Scope nat_scope.

Section Diag.
  Context {F : Type} {Fo : FOps F} (HF : is_field Fo).
  Add Ring FringSm : (ff_ring _ HF).

  (** a (e_i - e_j) *)
  Definition diff (i j : nat) (a : F) (k : nat) : F := if k =? i then a else if k =? j then fopp a else f0.

  Lemma diff_apply t (A : @mat F) i j a k : i < t -> j < t -> i <> j ->
    sumn t (fun l => fmul (A k l) (diff i j a l)) = fmul a (fsub (A k i) (A k j)).
  Proof.
    intros Hi Hj N.
    transitivity (fsub (sumn t (fun l => fmul (fmul a (A k l)) (if l =? i then f1 else f0)))
                       (sumn t (fun l => fmul (fmul a (A k l)) (if l =? j then f1 else f0)))).
    - rewrite <- (sumn_sub HF). apply sumn_ext. intros l Hl. unfold diff.
      destruct (Nat.eqb_spec l i), (Nat.eqb_spec l j); try lia; ring.
    - rewrite !(sumn_delta' HF) by assumption. ring.
  Qed.

  Lemma diff_eigen t (A : @mat F) (dg : nat -> F) i j a k : i < t -> j < t -> i <> j -> k < t ->
    (forall k l, k < t -> l < t -> A k l = if k =? l then dg k else f1) -> dg i = dg j ->
    sumn t (fun l => fmul (A k l) (diff i j a l)) = fmul (fsub (dg i) f1) (diff i j a k).
  Proof.
    intros Hi Hj N Hk HA E. rewrite diff_apply, !HA by assumption. unfold diff.
    destruct (Nat.eqb_spec k i), (Nat.eqb_spec k j); try lia; rewrite <- ?E; ring_simplify; subst; rewrite <- ?E; ring.
  Qed.

  Lemma equal_diag_rejected t (A : @mat F) (dg : nat -> F) i j : i < t -> j < t -> i <> j ->
    (forall k l, k < t -> l < t -> A k l = if k =? l then dg k else f1) -> dg i = dg j ->
    ~ check_minpoly_condition t A.
  Proof.
    intros Hi Hj N HA E HC. set (w := mkvec (t := t) (diff i j f1)).
    apply (ProofMinPoly2.check_no_small HF t A ltac:(lia) HC [fopp (fsub (dg i) f1)] w).
    - cbn. lia.
    - intros Ez. apply (f_equal (fun v => vc v i)) in Ez. unfold w, vz in Ez. rewrite !vc_mk in Ez by exact Hi.
      unfold diff in Ez. rewrite Nat.eqb_refl in Ez. apply (ff_one_neq_zero _ HF). exact Ez.
    - cbn [app LinOp.act]. apply vec_ext. intros k Hk.
      rewrite (lin_z HF (vec_module HF) (mop_linear HF A)), (vadd_0_r HF (vec_module HF)), (vm_sc1 _ _ _ _ (vec_module HF)).
      unfold vadd, vsc, vz. rewrite !vc_mk by exact Hk. unfold mop. rewrite vc_mk by exact Hk.
      transitivity (fadd (fmul (fopp (fsub (dg i) f1)) (diff i j f1 k)) (fmul (fsub (dg i) f1) (diff i j f1 k))); [|ring].
      f_equal; [unfold w; rewrite vc_mk by exact Hk; reflexivity|].
      etransitivity; [|apply (diff_eigen t A dg i j f1 k); assumption]. apply sumn_ext. intros l Hl. unfold w. rewrite vc_mk by exact Hl. reflexivity.
  Qed.

  (** the code's internal layer *)
  Theorem internal_equal_diag P diag i j a : p2_t P = 4 \/ p2_t P = 8 \/ p2_t P = 12 \/ p2_t P = 16 \/ p2_t P = 20 \/ p2_t P = 24 ->
    p2_t P <= length diag -> i < p2_t P -> j < p2_t P -> i <> j -> nth i diag f0 = nth j diag f0 ->
    let v := map (diff i j a) (seq 0 (p2_t P)) in
    p2_matmul_internal P v diag = Ok (map (fun x => fmul (nth i diag f0) x) v).
  Proof.
    intros Hw Hd Hi Hj N E v.
    assert (Lv : length v = p2_t P) by (unfold v; rewrite map_length, seq_length; reflexivity).
    rewrite (p2_matmul_internal_ok HF); [|cbn; intuition|exact Lv|intros _; exact Hd].
    f_equal. unfold mat_apply. unfold v. rewrite map_map. apply map_seq_ext. intros k Hk.
    transitivity (sumn (p2_t P) (fun l => fmul (int_matrix (p2_t P) diag k l) (diff i j a l))).
    - apply sumn_ext. intros l Hl. rewrite nth_map_seq by exact Hl. reflexivity.
    - rewrite (diff_eigen (p2_t P) _ (fun k => fadd (nth k diag f0) f1) i j a k); try assumption.
      + ring.
      + intros k' l' Hk' Hl'. unfold int_matrix. destruct (Nat.ltb_spec (p2_t P) 4); [lia|reflexivity].
      + rewrite E. reflexivity.
  Qed.
End Diag.

(** a list of numbers without repetition *)
Lemma product_repeat_In (vs : list Z) n : forall e, In e (product_repeat vs n) <-> length e = n /\ incl e vs.
Proof.
  induction n as [|n IH]; intros e; cbn [product_repeat].
  - split.
    + intros [<-|[]]. split; [reflexivity|intros x []].
    + intros [L _]. destruct e; [left; reflexivity|discriminate].
  - rewrite in_flat_map. split.
    + intros [x [Hx He]]. apply in_map_iff in He. destruct He as [e' [<- He]]. apply IH in He. destruct He as [L Hi].
      split; [cbn; lia|]. intros y [<-|Hy]; [exact Hx|apply Hi, Hy].
    + intros [L Hi]. destruct e as [|x e]; [discriminate|]. exists x. split; [apply Hi; left; reflexivity|].
      apply in_map. apply IH. split; [cbn in L; lia|]. intros y Hy. apply Hi. right. exact Hy.
Qed.

Lemma not_NoDup_pair (e : list Z) : ~ NoDup e -> exists i j, i < length e /\ j < length e /\ i <> j /\ nth i e 0%Z = nth j e 0%Z.
Proof.
  induction e as [|x e IH]; intros H; [destruct H; constructor|].
  destruct (in_dec Z.eq_dec x e) as [Hin|Hn].
  - destruct (In_nth e x 0%Z Hin) as [j [Hj E]]. exists 0, (S j). cbn [length nth]. split; [lia|]. split; [lia|]. split; [lia|]. symmetry. exact E.
  - destruct IH as [i [j [Hi [Hj [N E]]]]]; [intros C; apply H; constructor; assumption|].
    exists (S i), (S j). cbn [length nth]. repeat split; lia.
Qed.

Section Small.
  Context {F : Type} {Fo : FOps F} {p : Z} (HP : is_prime_field Fo p).
  Let HF : is_field Fo := prime_field_is_field HP.
  Add Ring FringSm2 : (ff_ring _ HF).

  Lemma repeated_rejected t (e : list Z) : length e = t -> ~ NoDup e -> ~ check_minpoly_condition t (entry (partial_matrix (F := F) t e)).
  Proof.
    intros L H. destruct (not_NoDup_pair e H) as [i [j [Hi [Hj [N E]]]]]. rewrite L in Hi, Hj.
    apply (equal_diag_rejected HF t _ (fun k => f_of_Z (nth k e 0%Z)) i j Hi Hj N).
    - intros k l Hk Hl. apply (ProofReject.partial_matrix_entry HP); assumption.
    - cbv beta. rewrite E. reflexivity.
  Qed.

  Lemma small_loop_found t l r : (forall e, In e l -> length e = t) -> small_entries_loop (F := F) t l (Some r) ->
    exists e, In e l /\ NoDup e /\ r = partial_matrix t e.
  Proof.
    intros HL H. remember (Some r) as o eqn:Eo. induction H as [|e l M [HI HC]|e l o M HN HR IH]; [discriminate| |].
    - injection Eo as <-. exists e. split; [left; reflexivity|]. split; [|reflexivity].
      destruct (ListDec.NoDup_dec Z.eq_dec e) as [D|D]; [exact D|].
      exfalso. revert HC. apply repeated_rejected; [apply HL; left; reflexivity|exact D].
    - destruct (IH (fun e' He' => HL e' (or_intror He')) Eo) as [e' [A B]]. exists e'. split; [right; exact A|exact B].
  Qed.

  Theorem small_entries_distinct t M : generate_matrix_partial_small_entries (F := F) t (Some M) ->
    t <= 4 /\ exists e, length e = t /\ incl e [2; 3; 4; 5]%Z /\ NoDup e /\ M = partial_matrix t e.
  Proof.
    intros H. apply small_loop_found in H.
    - destruct H as [e [He [D ->]]]. apply product_repeat_In in He. destruct He as [L Hi]. split.
      + rewrite <- L. exact (NoDup_incl_length D Hi).
      + exists e. auto.
    - intros e He. apply product_repeat_In in He. apply He.
  Qed.
  Theorem small_entries_none t : 5 <= t -> forall r, generate_matrix_partial_small_entries (F := F) t r <-> r = None.
  Proof.
    intros Ht r. split.
    - intros H. destruct r as [M|]; [|reflexivity]. apply small_entries_distinct in H. lia.
    - intros ->. unfold generate_matrix_partial_small_entries.
      assert (HL : forall e, In e (product_repeat [2; 3; 4; 5]%Z t) -> length e = t /\ ~ NoDup e).
      { intros e He. apply product_repeat_In in He. destruct He as [L Hi]. split; [exact L|].
        intros D. pose proof (NoDup_incl_length D Hi) as B. cbn [length] in B. lia. }
      induction (product_repeat [2; 3; 4; 5]%Z t) as [|e l IH]; [constructor|].
      apply small_next; [|apply IH; intros e' He'; apply HL; right; exact He'].
      intros [_ C]. destruct (HL e (or_introl eq_refl)) as [L D]. revert C. apply repeated_rejected; assumption.
  Qed.

  Lemma check_invertible t (A : @mat F) : 2 <= t -> check_minpoly_condition t A -> invertible t A.
  Proof.
    intros Ht HC. apply (nonsingular_invertible HF). intros x Hx j Hj.
    destruct (feq_dec HF (x j) f0) as [E|N]; [exact E|exfalso].
    apply (ProofMinPoly2.check_no_small HF t A ltac:(lia) HC [f0] (mkvec x)).
    - cbn. lia.
    - intros Ez. apply N. apply (f_equal (fun v => vc v j)) in Ez. unfold vz in Ez. rewrite !vc_mk in Ez by exact Hj. exact Ez.
    - cbn [app LinOp.act]. apply vec_ext. intros k Hk.
      rewrite (lin_z HF (vec_module HF) (mop_linear HF A)), (vadd_0_r HF (vec_module HF)), (vm_sc1 _ _ _ _ (vec_module HF)).
      unfold vadd, vsc, vz. rewrite !vc_mk by exact Hk. unfold mop. rewrite vc_mk by exact Hk.
      assert (E0 : sumn t (fun l => fmul (A k l) (vc (mkvec (t := t) x) l)) = f0).
      { etransitivity; [|exact (Hx k Hk)]. apply sumn_ext. intros l Hl. rewrite vc_mk by exact Hl. reflexivity. }
      rewrite E0. ring.
  Qed.
End Small.

(** ** the shipped instances *)
Theorem small_entries_width_2 I : In I p2_instances -> qi_t I = 2 -> forall F (Fo : FOps F), is_prime_field Fo (qi_p I) ->
  forall r, generate_matrix_partial_small_entries (F := F) 2 r <-> r = Some (map (map f_of_Z) (qi_mat I)).
Proof.
  intros HI T F Fo HP r.
  destruct (ProofKats.p2_shipped_consistent I HI) as [HC _].
  destruct (ProofGenerate.p2_matrix_shape I HI F Fo) as [S1 S2]. pose proof (ProofGenerate.p2_matrix_entry I HI F Fo HP) as SE.
  assert (E : partial_matrix (F := F) 2 [2; 3]%Z = map (map f_of_Z) (qi_mat I)).
  { rewrite T in *. destruct (ProofReject.partial_matrix_row (F := F) 2 [2; 3]%Z ltac:(lia) eq_refl) as [R1 R2].
    apply (ProofGenerate.matrix_eq 2); try assumption. intros i j Hi Hj. rewrite SE by assumption.
    rewrite (ProofReject.partial_matrix_entry HP) by (reflexivity || assumption). destruct (i =? j); [|reflexivity].
    apply (f_of_Z_eq_iff HP). rewrite (SpecInstances.pc_internal _ HC) by (rewrite T; exact Hi). rewrite Nat.eqb_refl, Zmod_mod. f_equal.
    rewrite (SpecInstances.pc_diag2 _ HC T). destruct i as [|[|i]]; [reflexivity|reflexivity|lia]. }
  assert (A : check_minpoly_condition 2 (entry (partial_matrix (F := F) 2 [2; 3]%Z))).
  { rewrite E. destruct (ProofMinPoly2.p2_minimal_polynomials I HI ltac:(lia) F Fo HP) as [A _]. rewrite T in A. exact A. }
  assert (B : ~ check_minpoly_condition 2 (entry (partial_matrix (F := F) 2 [2; 2]%Z))).
  { apply (repeated_rejected HP); [reflexivity|]. intros D. inversion D as [|x l D1 D2]; subst. apply D1. left. reflexivity. }
  unfold generate_matrix_partial_small_entries. cbn [product_repeat flat_map map app]. rewrite <- E. split.
  - intros H. inversion H as [|e l M [_ C]|e l r' M N HR]; subst; [contradiction|].
    inversion HR as [|e l M' [_ C]|e l r' M' N' HR']; subst; [reflexivity|].
    exfalso. apply N'. split; [apply (check_invertible HP); [lia|exact A]|exact A].
  - intros ->. apply small_next; [intros [_ C]; contradiction|]. apply small_found. split; [apply (check_invertible HP); [lia|exact A]|exact A].
Qed.

Fixpoint nodup_b (l : list Z) : bool := match l with [] => true | x :: l => negb (existsb (Z.eqb x) l) && nodup_b l end.
Lemma nodup_b_ok l : nodup_b l = true -> NoDup l.
Proof.
  induction l as [|x l IH]; intros H; [constructor|]. cbn [nodup_b] in H. apply andb_true_iff in H. destruct H as [H1 H2].
  constructor; [|apply IH, H2]. intros C. apply negb_true_iff in H1. enough (existsb (Z.eqb x) l = true) by congruence.
  apply existsb_exists. exists x. split; [exact C|apply Z.eqb_refl].
Qed.
Theorem shipped_diagonals I : In I p2_instances -> qi_t I <> 3 -> NoDup (qi_diag I).
Proof.
  intros HI T. apply nodup_b_ok. assert (H : forallb (fun I => (qi_t I =? 3) || nodup_b (qi_diag I)) p2_instances = true) by (vm_compute; reflexivity).
  rewrite forallb_forall in H. specialize (H I HI). apply orb_true_iff in H. destruct H as [H|H]; [apply Nat.eqb_eq in H; contradiction|exact H].
Qed.
