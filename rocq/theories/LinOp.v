(** * LinOp: polynomials in a linear operator, and when the operator has no small invariant subspace

    The argument is the one behind Rabin's irreducibility test, phrased without field extensions:
    if [e] is the least degree of a monic polynomial that kills a nonzero vector, then the product of all
    nonzero polynomials of degree < [e] shows [A^(p^e) = A] on the vectors killed. *)
From Coq Require Import Permutation.
From Verif Require Import Base Field Spec SpecMinPoly FieldPow.
Local Open Scope nat_scope.

Record is_module {F} (Fo : FOps F) {V : Type} (vz : V) (vadd : V -> V -> V) (vsc : F -> V -> V) : Prop := {
  vm_comm : forall v w, vadd v w = vadd w v;
  vm_assoc : forall u v w, vadd u (vadd v w) = vadd (vadd u v) w;
  vm_0 : forall v, vadd vz v = v;
  vm_sc0 : forall v, vsc f0 v = vz;
  vm_sc1 : forall v, vsc f1 v = v;
  vm_scadd : forall a b v, vsc (fadd a b) v = vadd (vsc a v) (vsc b v);
  vm_scmul : forall a b v, vsc (fmul a b) v = vsc a (vsc b v);
  vm_scv : forall a v w, vsc a (vadd v w) = vadd (vsc a v) (vsc a w);
  vm_dec : forall v, v = vz \/ v <> vz
}.

Definition is_linear {F V} (vadd : V -> V -> V) (vsc : F -> V -> V) (A : V -> V) : Prop :=
  (forall v w, A (vadd v w) = vadd (A v) (A w)) /\ (forall c v, A (vsc c v) = vsc c (A v)).

(** ** Iterates *)
Lemma iter_add {V} (A : V -> V) m n v : iter (m + n) A v = iter m A (iter n A v).
Proof. induction m as [|m IH]; cbn; [reflexivity|]. rewrite IH. reflexivity. Qed.
Lemma iter_shift {V} (A : V -> V) n v : iter n A (A v) = A (iter n A v).
Proof. induction n as [|n IH]; cbn; [reflexivity|]. rewrite IH. reflexivity. Qed.
Lemma iter_mul {V} (A : V -> V) m n v : iter (m * n) A v = iter m (iter n A) v.
Proof. induction m as [|m IH]; cbn; [reflexivity|]. rewrite iter_add. f_equal. exact IH. Qed.
Lemma iter_ext {V} (A B : V -> V) n v : (forall w, A w = B w) -> iter n A v = iter n B v.
Proof. intros H. induction n as [|n IH]; cbn; [reflexivity|]. rewrite IH. apply H. Qed.
Lemma iter_fix {V} (A : V -> V) n v : A v = v -> iter n A v = v.
Proof. intros H. induction n as [|n IH]; cbn; [reflexivity|]. rewrite IH. exact H. Qed.
Lemma iter_comm {V} (A B : V -> V) n v : (forall w, A (B w) = B (A w)) -> iter n A (B v) = B (iter n A v).
Proof. intros H. induction n as [|n IH]; cbn; [reflexivity|]. rewrite IH. apply H. Qed.
Lemma iter_comp {V} (A B : V -> V) n v : (forall w, A (B w) = B (A w)) ->
  iter n (fun w => A (B w)) v = iter n A (iter n B v).
Proof.
  intros H. induction n as [|n IH]; cbn; [reflexivity|]. rewrite IH. f_equal. symmetry. apply iter_comm, H.
Qed.

Section LinOp.
  Context {F : Type} {Fo : FOps F} (HF : is_field Fo).
  Add Ring FringLO : (ff_ring _ HF).
  Context {V : Type} {vz : V} {vadd : V -> V -> V} {vsc : F -> V -> V} (HV : is_module Fo vz vadd vsc).

  Set Default Proof Using "All".
  Notation "v +v w" := (vadd v w) (at level 50, left associativity).
  Notation "c *v v" := (vsc c v) (at level 40).

  Lemma vadd_0_r v : v +v vz = v.
  Proof. rewrite (vm_comm _ _ _ _ HV). apply (vm_0 _ _ _ _ HV). Qed.
  Lemma vsc_z c : c *v vz = vz.
  Proof.
    rewrite <- (vm_sc0 _ _ _ _ HV vz) at 1. rewrite <- (vm_scmul _ _ _ _ HV). replace (fmul c f0) with f0 by ring.
    apply (vm_sc0 _ _ _ _ HV).
  Qed.
  Definition vsub v w := v +v (fopp f1 *v w).
  Lemma vsub_diag v : vsub v v = vz.
  Proof.
    unfold vsub. rewrite <- (vm_sc1 _ _ _ _ HV v) at 1. rewrite <- (vm_scadd _ _ _ _ HV).
    replace (fadd f1 (fopp f1)) with f0 by ring. apply (vm_sc0 _ _ _ _ HV).
  Qed.
  Lemma vsub_eq v w : vsub v w = vz -> v = w.
  Proof.
    unfold vsub. intros H. apply (f_equal (fun u => u +v w)) in H. rewrite (vm_0 _ _ _ _ HV) in H.
    rewrite <- (vm_assoc _ _ _ _ HV) in H. rewrite (vm_comm _ _ _ _ HV _ w) in H.
    change (w +v (fopp f1 *v w)) with (vsub w w) in H. rewrite vsub_diag, vadd_0_r in H. exact H.
  Qed.
  Lemma vadd_swap a b c d : (a +v b) +v (c +v d) = (a +v c) +v (b +v d).
  Proof.
    rewrite !(vm_assoc _ _ _ _ HV). f_equal. rewrite <- !(vm_assoc _ _ _ _ HV). f_equal. apply (vm_comm _ _ _ _ HV).
  Qed.
  Lemma vsc_neq c v : c <> f0 -> v <> vz -> c *v v <> vz.
  Proof.
    intros Hc Hv E. apply Hv. rewrite <- (vm_sc1 _ _ _ _ HV v). rewrite <- (ff_inv _ HF c Hc), (vm_scmul _ _ _ _ HV), E.
    apply vsc_z.
  Qed.

  Section Op.
    Context {A : V -> V} (HA : is_linear vadd vsc A).

    Lemma lin_z : A vz = vz.
    Proof. rewrite <- (vm_sc0 _ _ _ _ HV vz) at 1. rewrite (proj2 HA). apply (vm_sc0 _ _ _ _ HV). Qed.
    Lemma lin_sub v w : A (vsub v w) = vsub (A v) (A w).
    Proof. unfold vsub. rewrite (proj1 HA), (proj2 HA). reflexivity. Qed.
    Lemma iter_linear n : is_linear vadd vsc (iter n A).
    Proof.
      induction n as [|n [I1 I2]]; split; intros; cbn; try reflexivity.
      - rewrite I1. apply (proj1 HA).
      - rewrite I2. apply (proj2 HA).
    Qed.

    (** the polynomial with coefficients [g] (lowest first) applied to the operator *)
    Fixpoint act (g : list F) (v : V) : V :=
      match g with [] => vz | c :: g' => (c *v v) +v A (act g' v) end.

    Lemma act_linear g : is_linear vadd vsc (act g).
    Proof.
      induction g as [|c g [I1 I2]]; split; intros; cbn.
      - symmetry. apply vadd_0_r.
      - symmetry. apply vsc_z.
      - rewrite I1, (proj1 HA), (vm_scv _ _ _ _ HV). apply vadd_swap.
      - rewrite I2, (proj2 HA), (vm_scv _ _ _ _ HV). f_equal. rewrite <- !(vm_scmul _ _ _ _ HV). f_equal. ring.
    Qed.
    Lemma act_z g : act g vz = vz.
    Proof. rewrite <- (vm_sc0 _ _ _ _ HV vz) at 1. rewrite (proj2 (act_linear g)). apply (vm_sc0 _ _ _ _ HV). Qed.
    Lemma act_A g v : act g (A v) = A (act g v).
    Proof.
      induction g as [|c g IH]; cbn; [symmetry; apply lin_z|]. rewrite IH, (proj1 HA), (proj2 HA). reflexivity.
    Qed.
    Lemma act_iter n g v : act g (iter n A v) = iter n A (act g v).
    Proof. symmetry. apply iter_comm. intros w. symmetry. apply act_A. Qed.
    Lemma act_comm g h v : act g (act h v) = act h (act g v).
    Proof.
      induction g as [|c g IH]; cbn; [symmetry; apply act_z|].
      rewrite IH. rewrite (proj1 (act_linear h)), (proj2 (act_linear h)), act_A. reflexivity.
    Qed.
    Lemma act_app g h v : act (g ++ h) v = act g v +v iter (length g) A (act h v).
    Proof.
      induction g as [|c g IH]; cbn; [symmetry; apply (vm_0 _ _ _ _ HV)|].
      rewrite IH, (proj1 HA). apply (vm_assoc _ _ _ _ HV).
    Qed.
    Lemma act_1 v : act [f1] v = v.
    Proof. cbn. rewrite lin_z, vadd_0_r. apply (vm_sc1 _ _ _ _ HV). Qed.
    Lemma act_single c v : act [c] v = c *v v.
    Proof. cbn. rewrite lin_z. apply vadd_0_r. Qed.
    Lemma act_monic g v : act (g ++ [f1]) v = act g v +v iter (length g) A v.
    Proof. rewrite act_app, act_1. reflexivity. Qed.
    Lemma act_scale a g v : act (map (fmul a) g) v = a *v act g v.
    Proof.
      induction g as [|c g IH]; cbn; [symmetry; apply vsc_z|].
      rewrite IH, (proj2 HA), (vm_scv _ _ _ _ HV), (vm_scmul _ _ _ _ HV). reflexivity.
    Qed.
    Lemma act_zeros n v : act (repeat f0 n) v = vz.
    Proof. induction n as [|n IH]; cbn; [reflexivity|]. rewrite IH, lin_z, vadd_0_r. apply (vm_sc0 _ _ _ _ HV). Qed.

    (** coefficientwise [a - l*b] *)
    Definition psubs (l : F) (a b : list F) : list F := map (fun '(x, y) => fsub x (fmul l y)) (combine a b).
    Lemma act_psubs l : forall a b v, length a = length b -> act (psubs l a b) v = vsub (act a v) (l *v act b v).
    Proof.
      induction a as [|x a IH]; intros [|y b] v H; try discriminate; cbn.
      - rewrite vsc_z. symmetry. apply vsub_diag.
      - fold (psubs l a b). rewrite IH by (simpl in H; lia). rewrite lin_sub. unfold vsub.
        rewrite (proj2 HA), !(vm_scv _ _ _ _ HV), vadd_swap.
        rewrite <- !(vm_scmul _ _ _ _ HV), <- (vm_scadd _ _ _ _ HV). f_equal. f_equal. ring.
    Qed.
    Lemma psubs_length l a b : length a = length b -> length (psubs l a b) = length a.
    Proof using Type. intros H. unfold psubs. rewrite map_length, combine_length. lia. Qed.

    (** a nonzero coefficient list splits at its leading coefficient *)
    Lemma split_leading (c : list F) : (exists x, In x c /\ x <> f0) ->
      exists h a n, c = h ++ a :: repeat f0 n /\ a <> f0.
    Proof using HF.
      induction c as [|y c IH]; intros [x [Hx Hn]]; [destruct Hx|].
      assert (D : (exists z, In z c /\ z <> f0) \/ (forall z, In z c -> z = f0)).
      { clear -HF. induction c as [|z c [[w [Hw Hn]]|IH]].
        - right. intros z [].
        - left. exists w. split; [right; exact Hw|exact Hn].
        - destruct (feq_dec HF z f0) as [->|E]; [right; intros w [<-|Hw]; [reflexivity|apply IH, Hw]|].
          left. exists z. split; [left; reflexivity|exact E]. }
      destruct D as [D|D].
      - destruct (IH D) as [h [a [n [-> Ha]]]]. exists (y :: h), a, n. split; [reflexivity|exact Ha].
      - exists [], y, (length c). split.
        + cbn. f_equal. clear -D. induction c as [|z c IH]; [reflexivity|]. cbn. rewrite (D z) by (left; reflexivity).
          f_equal. apply IH. intros w Hw. apply D. right. exact Hw.
        + destruct Hx as [<-|Hx]; [exact Hn|]. exfalso. apply Hn, D, Hx.
    Qed.
    Lemma act_leading h a n v : a <> f0 ->
      act (h ++ a :: repeat f0 n) v = a *v act (map (fmul (finv a)) h ++ [f1]) v.
    Proof.
      intros Ha. change (a :: repeat f0 n) with ([a] ++ repeat f0 n).
      rewrite app_assoc, act_app, act_zeros. rewrite (iter_fix A) by apply lin_z. rewrite vadd_0_r.
      rewrite <- act_scale. f_equal. rewrite map_app, map_map. cbn [map]. f_equal; [|f_equal; ring].
      rewrite <- (map_id h) at 1. apply map_ext. intros x.
      transitivity (fmul (fmul (finv a) a) x); [rewrite (ff_inv _ HF a Ha); ring|ring].
    Qed.
    (** if no monic polynomial of degree < e kills w, no nonzero one does *)
    Lemma nonzero_act e w : (forall h, length h < e -> act (h ++ [f1]) w <> vz) ->
      forall c, length c <= e -> (exists x, In x c /\ x <> f0) -> act c w <> vz.
    Proof.
      intros Hm c Hl Hc. destruct (split_leading c Hc) as [h [a [n [-> Ha]]]]. rewrite act_leading by exact Ha.
      apply vsc_neq; [exact Ha|]. apply Hm. rewrite map_length. rewrite app_length in Hl. simpl in Hl. lia.
    Qed.

    (** multiplication by the operator, modulo the monic polynomial [g ++ [1]] *)
    Definition xmod (g c : list F) : list F := psubs (last c f0) (f0 :: removelast c) g.
    Lemma xmod_length g c : length c = length g -> c <> [] -> length (xmod g c) = length g.
    Proof using Type.
      intros H N. unfold xmod. rewrite psubs_length; cbn [length]; rewrite ?(removelast_firstn_len c), firstn_length; destruct c; cbn in *; try congruence; lia.
    Qed.
    Lemma act_xmod g c w : length c = length g -> c <> [] -> act (g ++ [f1]) w = vz -> act (xmod g c) w = A (act c w).
    Proof.
      intros H N Hg. destruct (exists_last N) as [c' [l ->]].
      unfold xmod. rewrite removelast_last, last_last. rewrite app_length in H. cbn in H.
      rewrite act_psubs by (cbn; lia). rewrite act_app, (proj1 HA), act_single. cbn [act].
      rewrite (vm_sc0 _ _ _ _ HV), (vm_0 _ _ _ _ HV). unfold vsub. f_equal.
      rewrite act_monic in Hg. rewrite (proj2 (iter_linear (length c'))), (proj2 HA).
      change (A (iter (length c') A w)) with (iter (S (length c')) A w).
      replace (S (length c')) with (length g) by lia.
      apply vsub_eq. unfold vsub. rewrite <- !(vm_scmul _ _ _ _ HV).
      rewrite <- (vm_scv _ _ _ _ HV), Hg. apply vsc_z.
    Qed.
  End Op.
End LinOp.
