(** * Vec: the vectors of length t as a module; what follows when no small polynomial kills a nonzero vector *)
From Coq Require Import Eqdep_dec.
From Verif Require Import Base Field Spec SpecPoseidon SpecMinPoly LinAlg FieldPow LinOp.
Local Open Scope nat_scope.

Definition vec (F : Type) (t : nat) := { l : list F | (length l =? t) = true }.

Lemma map_const_repeat {A} (x : A) n k : map (fun _ => x) (seq k n) = repeat x n.
Proof. revert k. induction n as [|n IH]; intros k; cbn; [reflexivity|]. f_equal. apply IH. Qed.

Section Vec.
  Context {F : Type} {Fo : FOps F} (HF : is_field Fo) {t : nat}.
  Add Ring FringV : (ff_ring _ HF).

  Lemma mk_ok (f : nat -> F) : (length (map f (seq 0 t)) =? t) = true.
  Proof. rewrite map_length, seq_length. apply Nat.eqb_refl. Qed.
  Definition mkvec (f : nat -> F) : vec F t := exist _ (map f (seq 0 t)) (mk_ok f).
  Definition vc (v : vec F t) (i : nat) : F := nth i (proj1_sig v) f0.

  Lemma vec_length (v : vec F t) : length (proj1_sig v) = t.
  Proof. apply Nat.eqb_eq. exact (proj2_sig v). Qed.
  Lemma vec_eq (v w : vec F t) : proj1_sig v = proj1_sig w -> v = w.
  Proof. destruct v as [l H], w as [m H']. cbn. intros <-. f_equal. apply (UIP_dec Bool.bool_dec). Qed.
  Lemma vec_ext (v w : vec F t) : (forall i, i < t -> vc v i = vc w i) -> v = w.
  Proof.
    intros H. apply vec_eq. apply (nth_ext _ _ f0 f0); [rewrite !vec_length; reflexivity|].
    intros i Hi. rewrite vec_length in Hi. apply (H i Hi).
  Qed.
  Lemma vc_mk f i : i < t -> vc (mkvec f) i = f i.
  Proof.
    intros Hi. unfold vc, mkvec. cbn. rewrite (nth_indep _ f0 (f 0)) by (rewrite map_length, seq_length; exact Hi).
    rewrite (map_nth f (seq 0 t) 0 i), seq_nth by exact Hi. reflexivity.
  Qed.

  Definition vz : vec F t := mkvec (fun _ => f0).
  Definition vadd (v w : vec F t) : vec F t := mkvec (fun i => fadd (vc v i) (vc w i)).
  Definition vsc (c : F) (v : vec F t) : vec F t := mkvec (fun i => fmul c (vc v i)).

  Lemma vec_module : is_module Fo vz vadd vsc.
  Proof.
    constructor; intros; try (apply vec_ext; intros i Hi; unfold vadd, vsc, vz; rewrite ?vc_mk by exact Hi; ring).
    assert (D : forall n, (forall i, i < n -> vc v i = f0) \/ exists i, i < n /\ vc v i <> f0).
    { intros n. induction n as [|n [IH|[i [Hi Hn]]]].
      - left. intros i Hi. lia.
      - destruct (feq_dec HF (vc v n) f0) as [E|E].
        + left. intros i Hi. destruct (Nat.eq_dec i n) as [->|N]; [exact E|]. apply IH. lia.
        + right. exists n. split; [lia|exact E].
      - right. exists i. split; [lia|exact Hn]. }
    destruct (D t) as [D0|[i [Hi Hn]]].
    - left. apply vec_ext. intros i Hi. unfold vz. rewrite vc_mk by exact Hi. apply D0, Hi.
    - right. intros ->. apply Hn. unfold vz. rewrite vc_mk by exact Hi. reflexivity.
  Qed.

  (** the operator of a matrix *)
  Definition mop (A : mat) (v : vec F t) : vec F t := mkvec (fun i => sumn t (fun j => fmul (A i j) (vc v j))).
  Lemma mop_list A v : proj1_sig (mop A v) = mat_apply t t A (proj1_sig v).
  Proof. reflexivity. Qed.
  Lemma mop_linear A : is_linear vadd vsc (mop A).
  Proof.
    split; intros; apply vec_ext; intros i Hi; unfold mop, vadd, vsc; rewrite ?vc_mk by exact Hi.
    - rewrite <- (sumn_add HF). apply sumn_ext. intros j Hj. rewrite vc_mk by exact Hj. ring.
    - rewrite <- (sumn_mul_l HF). apply sumn_ext. intros j Hj. rewrite vc_mk by exact Hj. ring.
  Qed.
  Lemma mop_ext A B v : (forall i j, i < t -> j < t -> A i j = B i j) -> mop A v = mop B v.
  Proof.
    intros E. apply vec_ext. intros i Hi. unfold mop. rewrite !vc_mk by exact Hi. apply sumn_ext. intros j Hj. rewrite E by assumption. reflexivity.
  Qed.
  Lemma mop_mul A B v : mop (mat_mul t A B) v = mop A (mop B v).
  Proof.
    apply vec_ext. intros i Hi. unfold mop at 1 2. rewrite !vc_mk by exact Hi. unfold mat_mul.
    transitivity (sumn t (fun j => sumn t (fun k => fmul (fmul (A i k) (B k j)) (vc v j)))).
    { apply sumn_ext. intros j Hj. symmetry. apply (sumn_mul_r HF). }
    rewrite (sumn_swap HF). apply sumn_ext. intros k Hk. unfold mop. rewrite vc_mk by exact Hk.
    rewrite <- (sumn_mul_l HF). apply sumn_ext. intros j Hj. ring.
  Qed.
  Lemma mop_id v : mop mat_id v = v.
  Proof.
    apply vec_eq. rewrite mop_list. apply (mat_apply_id HF). apply vec_length.
  Qed.
  Lemma mop_pow A k v : mop (mat_pow t A k) v = iter k (mop A) v.
  Proof.
    induction k as [|k IH]; cbn [mat_pow iter]; [apply mop_id|]. rewrite mop_mul, IH. reflexivity.
  Qed.

  Notation act A := (LinOp.act (vz := vz) (vadd := vadd) (vsc := vsc) (A := A)).

  Lemma act_ext (A B : vec F t -> vec F t) g v : (forall w, A w = B w) -> act A g v = act B g v.
  Proof. intros E. induction g as [|c g IH]; cbn [LinOp.act]; [reflexivity|]. rewrite IH, E. reflexivity. Qed.

  Lemma act_vc A (HA : is_linear vadd vsc A) : forall g v i, i < t ->
    vc (act A g v) i = sumn (length g) (fun k => fmul (nth k g f0) (vc (iter k A v) i)).
  Proof.
    induction g as [|c g IH]; intros v i Hi; cbn [LinOp.act length].
    - unfold vz. rewrite vc_mk by exact Hi. reflexivity.
    - rewrite (sumn_first HF). unfold vadd at 1. rewrite vc_mk by exact Hi. f_equal.
      + unfold vsc. rewrite vc_mk by exact Hi. reflexivity.
      + rewrite <- (act_A HF vec_module HA), IH by exact Hi. apply sumn_ext. intros k Hk. cbn [nth]. rewrite iter_shift. reflexivity.
  Qed.
  Lemma act_poly A g v : act (mop A) g v = mop (mat_poly t g A) v.
  Proof.
    apply vec_ext. intros i Hi. rewrite act_vc by (apply mop_linear || exact Hi).
    unfold mop at 2. rewrite vc_mk by exact Hi. unfold mat_poly.
    transitivity (sumn (length g) (fun k => sumn t (fun j => fmul (fmul (nth k g f0) (mat_pow t A k i j)) (vc v j)))).
    { apply sumn_ext. intros k Hk. rewrite <- mop_pow. unfold mop. rewrite vc_mk by exact Hi.
      rewrite <- (sumn_mul_l HF). apply sumn_ext. intros j Hj. ring. }
    rewrite (sumn_swap HF). apply sumn_ext. intros j Hj. apply (sumn_mul_r HF).
  Qed.

  Definition unit_vec (k : nat) : vec F t := mkvec (fun i => if i =? k then f1 else f0).
  Lemma unit_vec_neq k : k < t -> unit_vec k <> vz.
  Proof.
    intros Hk E. assert (H : vc (unit_vec k) k = vc vz k) by (rewrite E; reflexivity).
    unfold unit_vec, vz in H. rewrite !vc_mk in H by exact Hk. rewrite Nat.eqb_refl in H. apply (ff_one_neq_zero _ HF). exact H.
  Qed.
  Lemma mop_unit A i k : i < t -> k < t -> vc (mop A (unit_vec k)) i = A i k.
  Proof.
    intros Hi Hk. unfold mop. rewrite vc_mk by exact Hi. rewrite (sumn_single HF t k); [|exact Hk|].
    - unfold unit_vec. rewrite vc_mk by exact Hk. rewrite Nat.eqb_refl. ring.
    - intros j Hj N. unfold unit_vec. rewrite vc_mk by exact Hj. destruct (Nat.eqb_spec j k); [contradiction|]. ring.
  Qed.
  Lemma mop_units A v : mop A v = vz <-> forall i, i < t -> sumn t (fun j => fmul (A i j) (vc v j)) = f0.
  Proof.
    split.
    - intros E i Hi. transitivity (vc (mop A v) i); [unfold mop; rewrite vc_mk by exact Hi; reflexivity|].
      rewrite E. unfold vz. apply vc_mk. exact Hi.
    - intros H. apply vec_ext. intros i Hi. unfold mop, vz. rewrite !vc_mk by exact Hi. apply H, Hi.
  Qed.
  Lemma annihilates_act g A : annihilates t g A <-> forall v, act (mop A) g v = vz.
  Proof.
    split.
    - intros H v. rewrite act_poly. apply mop_units. intros i Hi. apply (sumn_zero HF). intros j Hj.
      rewrite H by assumption. ring.
    - intros H i j Hi Hj. rewrite <- (mop_unit (mat_poly t g A) i j Hi Hj), <- act_poly, H. unfold vz. apply vc_mk. exact Hi.
  Qed.

  (** ** Products of polynomials *)
  Lemma act_coeffs A (HA : is_linear vadd vsc A) g h v : (forall k, nth k g f0 = nth k h f0) -> act A g v = act A h v.
  Proof.
    intros E. apply vec_ext. intros i Hi. rewrite !act_vc by assumption.
    assert (P : forall l n, length l <= n -> sumn (length l) (fun k => fmul (nth k l f0) (vc (iter k A v) i)) =
                                     sumn n (fun k => fmul (nth k l f0) (vc (iter k A v) i))).
    { intros l n Hl. replace n with (length l + (n - length l)) by lia. rewrite (sumn_split HF).
      rewrite (sumn_zero HF (n - length l)); [ring|]. intros k Hk. rewrite nth_overflow by lia. ring. }
    rewrite (P g (length g + length h)), (P h (length g + length h)) by lia.
    apply sumn_ext. intros k Hk. rewrite E. reflexivity.
  Qed.

  Fixpoint paddl (a b : list F) : list F :=
    match a, b with [], _ => b | _, [] => a | x :: a', y :: b' => fadd x y :: paddl a' b' end.
  Fixpoint pmull (a b : list F) : list F :=
    match a with [] => [] | c :: a' => paddl (map (fmul c) b) (f0 :: pmull a' b) end.
  Lemma paddl_nth a : forall b k, nth k (paddl a b) f0 = fadd (nth k a f0) (nth k b f0).
  Proof.
    induction a as [|x a IH]; intros [|y b] [|k]; cbn; try ring. apply IH.
  Qed.
  Lemma pmull_nth b : forall a k, nth k (pmull a b) f0 = product_coefficient a b k.
  Proof.
    induction a as [|c a IH]; intros k; unfold product_coefficient; cbn [pmull].
    - rewrite (sumn_zero HF); [destruct k; reflexivity|]. intros i Hi. destruct i; cbn; ring.
    - rewrite paddl_nth, (sumn_first HF). f_equal.
      + cbn [nth]. rewrite Nat.sub_0_r. destruct (Nat.lt_ge_cases k (length b)) as [L|L].
        * rewrite (nth_indep _ f0 (fmul c f0)) by (rewrite map_length; exact L). apply map_nth.
        * rewrite !nth_overflow by (rewrite ?map_length; exact L). ring.
      + destruct k as [|k]; [reflexivity|]. cbn [nth]. rewrite IH. reflexivity.
  Qed.
  Lemma act_paddl A (HA : is_linear vadd vsc A) : forall a b v, act A (paddl a b) v = vadd (act A a v) (act A b v).
  Proof.
    induction a as [|x a IH]; intros b v.
    - cbn. symmetry. apply (vm_0 _ _ _ _ vec_module).
    - destruct b as [|y b]; cbn [paddl LinOp.act]; [symmetry; apply (vadd_0_r HF vec_module)|].
      rewrite IH, (proj1 HA), (vm_scadd _ _ _ _ vec_module). apply (vadd_swap HF vec_module).
  Qed.
  Lemma act_pmull A (HA : is_linear vadd vsc A) b : forall a v, act A (pmull a b) v = act A a (act A b v).
  Proof.
    induction a as [|c a IH]; intros v; cbn [pmull]; [reflexivity|].
    rewrite (act_paddl A HA), (act_scale HF vec_module HA). cbn [LinOp.act].
    rewrite IH, (vm_sc0 _ _ _ _ vec_module), (vm_0 _ _ _ _ vec_module). reflexivity.
  Qed.
  Lemma act_product A (HA : is_linear vadd vsc A) a b g v : (forall k, product_coefficient a b k = nth k g f0) ->
    act A g v = act A a (act A b v).
  Proof.
    intros E. rewrite <- (act_pmull A HA). apply (act_coeffs A HA). intros k. rewrite pmull_nth. symmetry. apply E.
  Qed.

  (** ** Consequences *)
  Section Consequences.
    Context (Ht : 1 <= t) {A : mat}
      (NS : forall h w, length h < t -> w <> vz -> act (mop A) (h ++ [f1]) w <> vz).

    Lemma krylov w : w <> vz -> nonsingular t (fun i j => vc (iter j (mop A) w) i).
    Proof.
      intros Hw x Hx j Hj. destruct (feq_dec HF (x j) f0) as [E|E]; [exact E|]. exfalso.
      apply (nonzero_act HF vec_module (mop_linear A) t w) with (c := map x (seq 0 t)).
      - intros h Hh. apply NS; assumption.
      - rewrite map_length, seq_length. lia.
      - exists (x j). split; [apply in_map, in_seq; lia|exact E].
      - apply vec_ext. intros i Hi. rewrite act_vc by (apply mop_linear || exact Hi).
        rewrite map_length, seq_length. unfold vz. rewrite vc_mk by exact Hi. etransitivity; [|exact (Hx i Hi)].
        apply sumn_ext. intros k Hk. rewrite (nth_indep _ f0 (x 0)) by (rewrite map_length, seq_length; exact Hk).
        rewrite map_nth, seq_nth by exact Hk. cbn [Nat.add]. ring.
    Qed.
    (** every vector is a polynomial in the operator applied to [w] *)
    Lemma krylov_span w u : w <> vz -> exists g, length g = t /\ act (mop A) g w = u.
    Proof.
      intros Hw. destruct (nonsingular_invertible HF t _ (krylov w Hw)) as [B [HB _]].
      exists (map (fun k => sumn t (fun j => fmul (B k j) (vc u j))) (seq 0 t)).
      split; [rewrite map_length, seq_length; reflexivity|].
      apply vec_ext. intros i Hi. rewrite act_vc by (apply mop_linear || exact Hi). rewrite map_length, seq_length.
      transitivity (sumn t (fun k => fmul (vc (iter k (mop A) w) i) (sumn t (fun j => fmul (B k j) (vc u j))))).
      { apply sumn_ext. intros k Hk.
        rewrite (nth_indep _ f0 (sumn t (fun j => fmul (B 0 j) (vc u j)))) by (rewrite map_length, seq_length; exact Hk).
        rewrite (map_nth (fun k => sumn t (fun j => fmul (B k j) (vc u j)))), seq_nth by exact Hk. cbn [Nat.add]. ring. }
      transitivity (sumn t (fun j => fmul (mat_mul t (fun i j => vc (iter j (mop A) w) i) B i j) (vc u j))).
      { unfold mat_mul. transitivity (sumn t (fun k => sumn t (fun j => fmul (fmul (vc (iter k (mop A) w) i) (B k j)) (vc u j)))).
        - apply sumn_ext. intros k Hk. rewrite <- (sumn_mul_l HF). apply sumn_ext. intros j Hj. ring.
        - rewrite (sumn_swap HF). apply sumn_ext. intros j Hj. apply (sumn_mul_r HF). }
      transitivity (sumn t (fun j => fmul (mat_id i j) (vc u j))).
      { apply sumn_ext. intros j Hj. rewrite HB by assumption. reflexivity. }
      rewrite (sumn_single HF t i); [unfold mat_id; rewrite Nat.eqb_refl; ring|exact Hi|].
      intros j Hj N. unfold mat_id. destruct (Nat.eqb_spec i j); [congruence|]. ring.
    Qed.

    Lemma invariant_is_everything (S : list F -> Prop) : is_subspace t S ->
      (forall v, S v -> S (mat_apply t t A v)) -> (exists v, S v /\ v <> repeat f0 t) -> forall v, length v = t -> S v.
    Proof.
      intros [SL SC] SA [w [Hw Hn]] u Hu.
      assert (Lw : (length w =? t) = true) by (apply Nat.eqb_eq, SL, Hw).
      assert (Lu : (length u =? t) = true) by (apply Nat.eqb_eq, Hu).
      set (w' := exist _ w Lw : vec F t).
      assert (Nw : w' <> vz).
      { intros E. apply Hn. assert (E2 : proj1_sig w' = proj1_sig vz) by (rewrite E; reflexivity). cbn in E2. rewrite E2.
        apply map_const_repeat. }
      destruct (krylov_span w' (exist _ u Lu) Nw) as [g [_ Hg]].
      assert (P : forall g, S (proj1_sig (act (mop A) g w'))).
      { clear -SC SA Hw HF. induction g as [|c g IH]; cbn [LinOp.act].
        - specialize (SC w w f0 f0 Hw Hw).
          replace (proj1_sig vz) with (map (fun i => fadd (fmul f0 (nth i w f0)) (fmul f0 (nth i w f0))) (seq 0 t)); [exact SC|].
          cbn. apply map_ext. intros i. ring.
        - specialize (SC _ _ c f1 Hw (SA _ IH)). replace (proj1_sig (vadd _ _)) with
            (map (fun i => fadd (fmul c (nth i w f0)) (fmul f1 (nth i (mat_apply t t A (proj1_sig (act (mop A) g w'))) f0))) (seq 0 t)); [exact SC|].
          unfold vadd, mkvec. cbn [proj1_sig]. apply map_ext_in. intros i Hi. apply in_seq in Hi.
          unfold vsc. rewrite vc_mk by lia. unfold vc. rewrite mop_list. cbn [proj1_sig w']. ring. }
      specialize (P g). rewrite Hg in P. exact P.
    Qed.

    Lemma minimal_exists : exists g, is_minimal_polynomial t A g /\ length g = t /\ is_irreducible g.
    Proof.
      pose proof (unit_vec_neq 0 Ht) as N0. set (e := unit_vec 0) in *.
      destruct (krylov_span e (iter t (mop A) e) N0) as [c [Lc Hc]]. set (g := map (fmul (fopp f1)) c).
      assert (Lg : length g = t) by (unfold g; rewrite map_length; exact Lc).
      assert (Kg : act (mop A) (g ++ [f1]) e = vz).
      { rewrite (act_monic HF vec_module (mop_linear A)), Lg. unfold g. rewrite (act_scale HF vec_module (mop_linear A)), Hc.
        rewrite (vm_comm _ _ _ _ vec_module). apply (vsub_diag HF vec_module). }
      assert (Ka : forall v, act (mop A) (g ++ [f1]) v = vz).
      { intros v. destruct (krylov_span e v N0) as [h [_ <-]]. rewrite (act_comm HF vec_module (mop_linear A)), Kg.
        apply (act_z HF vec_module (mop_linear A)). }
      exists g. split; [|split; [exact Lg|]].
      - split; [apply annihilates_act; exact Ka|]. intros h Hh Hk. rewrite annihilates_act in Hk.
        apply (NS h e); [lia|exact N0|apply Hk].
      - split; [lia|]. intros [a [b [La [Lb E]]]].
        apply (NS a (act (mop A) (b ++ [f1]) e)); [lia| |].
        + apply NS; [lia|exact N0].
        + rewrite <- (act_product (mop A) (mop_linear A) _ _ _ _ E). exact Kg.
    Qed.
  End Consequences.
End Vec.
