(** * LinAlg: finite sums, matrices, and the dimension argument
    (a left inverse of a square matrix is a right inverse). *)
From Verif Require Import Base Field Spec.

Section LinAlg.
  Context {F : Type} {Fo : FOps F} (HF : is_field Fo).
  Add Ring FringL : (ff_ring _ HF).

  (** ** Sums *)
  Lemma sumn_ext n f g : (forall i, i < n -> f i = g i) -> sumn n f = sumn n g.
  Proof.
    induction n as [|n IH]; intros H; simpl; [reflexivity|].
    rewrite IH by (intros; apply H; lia). rewrite (H n) by lia. reflexivity.
  Qed.

  Lemma sumn_zero n f : (forall i, i < n -> f i = f0) -> sumn n f = f0.
  Proof.
    induction n as [|n IH]; intros H; simpl; [reflexivity|].
    rewrite IH by (intros; apply H; lia). rewrite (H n) by lia. ring.
  Qed.

  Lemma sumn_add n f g : sumn n (fun i => fadd (f i) (g i)) = fadd (sumn n f) (sumn n g).
  Proof. induction n as [|n IH]; simpl; [ring|]. rewrite IH. ring. Qed.

  Lemma sumn_sub n f g : sumn n (fun i => fsub (f i) (g i)) = fsub (sumn n f) (sumn n g).
  Proof. induction n as [|n IH]; simpl; [ring|]. rewrite IH. ring. Qed.

  Lemma sumn_mul_l n a f : sumn n (fun i => fmul a (f i)) = fmul a (sumn n f).
  Proof. induction n as [|n IH]; simpl; [ring|]. rewrite IH. ring. Qed.

  Lemma sumn_mul_r n a f : sumn n (fun i => fmul (f i) a) = fmul (sumn n f) a.
  Proof. induction n as [|n IH]; simpl; [ring|]. rewrite IH. ring. Qed.

  Lemma sumn_swap n m f :
    sumn n (fun i => sumn m (fun j => f i j)) = sumn m (fun j => sumn n (fun i => f i j)).
  Proof.
    induction n as [|n IH]; simpl.
    - symmetry. apply sumn_zero. reflexivity.
    - rewrite IH, <- sumn_add. reflexivity.
  Qed.

  (** only index k contributes *)
  Lemma sumn_single n k f :
    k < n -> (forall i, i < n -> i <> k -> f i = f0) -> sumn n f = f k.
  Proof.
    induction n as [|n IH]; intros Hk H; [lia|]. simpl.
    destruct (Nat.eq_dec k n) as [->|Hn].
    - rewrite sumn_zero by (intros; apply H; lia). ring.
    - rewrite IH by (try lia; intros; apply H; lia). rewrite (H n) by lia. ring.
  Qed.

  Lemma sumn_split n m f : sumn (n + m) f = fadd (sumn n f) (sumn m (fun i => f (n + i)%nat)).
  Proof.
    induction m as [|m IH]; simpl.
    - rewrite Nat.add_0_r. ring.
    - rewrite Nat.add_succ_r. simpl. rewrite IH. ring.
  Qed.

  Lemma sumn_first n f : sumn (S n) f = fadd (f 0) (sumn n (fun i => f (S i))).
  Proof. change (S n) with (1 + n). rewrite sumn_split. simpl. ring. Qed.

  Lemma sumn_rev n f : sumn n f = sumn n (fun i => f (n - 1 - i)%nat).
  Proof.
    induction n as [|n IH]; [reflexivity|].
    rewrite (sumn_first n (fun i => f (S n - 1 - i)%nat)). simpl sumn at 1.
    rewrite IH. replace (S n - 1 - 0) with n by lia.
    rewrite (sumn_ext n (fun i => f (n - 1 - i)%nat) (fun i => f (S n - 1 - S i)%nat)).
    - ring.
    - intros i Hi. f_equal. lia.
  Qed.

  (** sums over lists *)
  Lemma fold_left_fadd l a : fold_left fadd l a = fadd a (sumn (length l) (fun i => nth i l f0)).
  Proof.
    revert a; induction l as [|x l IH]; intros a; cbn [fold_left length].
    - simpl. ring.
    - rewrite IH, sumn_first. simpl nth. ring.
  Qed.

  Lemma sumn_delta n i (f : nat -> F) :
    i < n -> sumn n (fun j => fmul (if i =? j then f1 else f0) (f j)) = f i.
  Proof.
    intros Hi. rewrite (sumn_single n i).
    - rewrite Nat.eqb_refl. ring.
    - exact Hi.
    - intros j _ Hj. destruct (Nat.eqb_spec i j); [congruence|]. ring.
  Qed.

  Lemma sumn_delta' n i (f : nat -> F) :
    i < n -> sumn n (fun j => fmul (f j) (if j =? i then f1 else f0)) = f i.
  Proof.
    intros Hi. rewrite (sumn_single n i).
    - rewrite Nat.eqb_refl. ring.
    - exact Hi.
    - intros j _ Hj. destruct (Nat.eqb_spec j i); [congruence|]. ring.
  Qed.

  (** ** Matrices *)
  Lemma mat_apply_length n m A x : length (mat_apply n m A x) = n.
  Proof. unfold mat_apply. rewrite map_length, seq_length. reflexivity. Qed.

  Lemma mat_apply_nth n m A x i :
    i < n -> nth i (mat_apply n m A x) f0 = sumn m (fun j => fmul (A i j) (nth j x f0)).
  Proof. intros Hi. unfold mat_apply. rewrite nth_map_seq by exact Hi. reflexivity. Qed.

  Lemma mat_apply_ext n m A B x y :
    (forall i j, i < n -> j < m -> A i j = B i j) ->
    (forall j, j < m -> nth j x f0 = nth j y f0) ->
    mat_apply n m A x = mat_apply n m B y.
  Proof.
    intros H Hx. unfold mat_apply. apply map_seq_ext. intros i Hi. apply sumn_ext.
    intros j Hj. rewrite H, Hx by assumption. reflexivity.
  Qed.

  Lemma mat_apply_id n x : length x = n -> mat_apply n n mat_id x = x.
  Proof.
    intros Hl. apply (list_ext f0); [rewrite mat_apply_length; auto|].
    intros i Hi. rewrite mat_apply_length in Hi. rewrite mat_apply_nth by exact Hi.
    unfold mat_id. apply (sumn_delta n i (fun j => nth j x f0)). exact Hi.
  Qed.

  Lemma mat_apply_comp n m k A B x :
    mat_apply n m A (mat_apply m k B x) = mat_apply n k (mat_mul m A B) x.
  Proof.
    unfold mat_apply at 1 3. apply map_seq_ext. intros i Hi.
    rewrite (sumn_ext m _ (fun j => sumn k (fun l => fmul (fmul (A i j) (B j l)) (nth l x f0)))).
    - rewrite sumn_swap. apply sumn_ext. intros l Hl. unfold mat_mul.
      rewrite <- sumn_mul_r. reflexivity.
    - intros j Hj. rewrite mat_apply_nth by exact Hj. rewrite <- sumn_mul_l.
      apply sumn_ext. intros l _. ring.
  Qed.

  Lemma mat_mul_ext n A A' B B' i j :
    (forall k, k < n -> A i k = A' i k) -> (forall k, k < n -> B k j = B' k j) ->
    mat_mul n A B i j = mat_mul n A' B' i j.
  Proof.
    intros H1 H2. unfold mat_mul. apply sumn_ext. intros k Hk.
    rewrite H1, H2 by exact Hk. reflexivity.
  Qed.

  Lemma mat_mul_assoc n m A B C i j :
    mat_mul n A (mat_mul m B C) i j = mat_mul m (mat_mul n A B) C i j.
  Proof.
    unfold mat_mul.
    rewrite (sumn_ext n _ (fun k => sumn m (fun l => fmul (fmul (A i k) (B k l)) (C l j)))).
    - rewrite sumn_swap. apply sumn_ext. intros l _. rewrite <- sumn_mul_r. reflexivity.
    - intros k _. rewrite <- sumn_mul_l. apply sumn_ext. intros l _. ring.
  Qed.

  Lemma mat_mul_id_l n A i j : i < n -> mat_mul n mat_id A i j = A i j.
  Proof. intros Hi. unfold mat_mul, mat_id. apply (sumn_delta n i (fun k => A k j)). exact Hi. Qed.
  Lemma mat_mul_id_r n A i j : j < n -> mat_mul n A mat_id i j = A i j.
  Proof. intros Hj. unfold mat_mul, mat_id. apply (sumn_delta' n j (fun k => A i k)). exact Hj. Qed.

  Lemma mat_eq_trans n (A B C : @mat F) : mat_eq n A B -> mat_eq n B C -> mat_eq n A C.
  Proof. intros H1 H2 i j Hi Hj. rewrite H1 by assumption. apply H2; assumption. Qed.
  Lemma mat_eq_sym n (A B : @mat F) : mat_eq n A B -> mat_eq n B A.
  Proof. intros H i j Hi Hj. symmetry. apply H; assumption. Qed.

  (** ** The dimension argument *)

  (** skipping index k *)
  Definition skip (k j : nat) : nat := if j <? k then j else S j.

  Lemma sumn_skip m k f : k <= m -> sumn (S m) f = fadd (f k) (sumn m (fun j => f (skip k j))).
  Proof.
    revert k; induction m as [|m IH]; intros k Hk.
    - assert (k = 0%nat) by lia. subst. simpl. ring.
    - change (sumn (S (S m)) f) with (fadd (sumn (S m) f) (f (S m))).
      change (sumn (S m) (fun j => f (skip k j)))
        with (fadd (sumn m (fun j => f (skip k j))) (f (skip k m))).
      unfold skip at 2. destruct (Nat.ltb_spec m k) as [L|L].
      + assert (k = S m) by lia. subst k.
        rewrite (sumn_ext m (fun j => f (skip (S m) j)) f).
        * simpl. ring.
        * intros j Hj. unfold skip. destruct (Nat.ltb_spec j (S m)); [reflexivity|lia].
      + rewrite (IH k) by lia. ring.
  Qed.

  (** n homogeneous equations in m > n unknowns have a non-trivial solution. *)
  Lemma underdetermined n : forall m (A : nat -> nat -> F),
    n < m ->
    exists x : nat -> F, (exists j, j < m /\ x j <> f0) /\
      forall i, i < n -> sumn m (fun j => fmul (A i j) (x j)) = f0.
  Proof.
    induction n as [|n IH]; intros m A Hm.
    - exists (fun _ => f1). split; [|intros; lia].
      exists 0%nat. split; [lia | apply (ff_one_neq_zero _ HF)].
    - assert (Hrow : (exists k, k < m /\ A n k <> f0) \/ (forall k, k < m -> A n k = f0)).
      { clear -HF. induction m as [|m IHm].
        - right. intros; lia.
        - destruct IHm as [[k [Hk Hk0]]|Hz].
          + left. exists k. split; [lia|assumption].
          + destruct (feq_dec HF (A n m) f0) as [E|E].
            * right. intros k Hk. destruct (Nat.eq_dec k m) as [->|]; [exact E|]. apply Hz. lia.
            * left. exists m. split; [lia|assumption]. }
      destruct Hrow as [[k [Hk Hp]]|Hz].
      + destruct m as [|m]; [lia|].
        set (B := fun i j => fsub (A i (skip k j)) (fmul (fmul (A i k) (finv (A n k))) (A n (skip k j)))).
        destruct (IH m B) as [y [[j0 [Hj0 Hy]] Hsol]]; [lia|].
        set (s := sumn m (fun j => fmul (A n (skip k j)) (y j))).
        set (x := fun j => if j <? k then y j else if j =? k then fopp (fmul (finv (A n k)) s)
                           else y (pred j)).
        assert (Hx : forall j, x (skip k j) = y j).
        { intros j. unfold x, skip. destruct (Nat.ltb_spec j k) as [L|L].
          - destruct (Nat.ltb_spec j k); [reflexivity|lia].
          - destruct (Nat.ltb_spec (S j) k); [lia|].
            destruct (Nat.eqb_spec (S j) k); [lia|]. reflexivity. }
        assert (Hxk : x k = fopp (fmul (finv (A n k)) s)).
        { unfold x. rewrite Nat.ltb_irrefl, Nat.eqb_refl. reflexivity. }
        exists x. split.
        * exists (skip k j0). split.
          -- unfold skip. destruct (Nat.ltb_spec j0 k); lia.
          -- rewrite Hx. exact Hy.
        * intros i Hi. rewrite (sumn_skip m k) by lia. rewrite Hxk.
          rewrite (sumn_ext m _ (fun j => fmul (A i (skip k j)) (y j)))
            by (intros j _; rewrite Hx; reflexivity).
          destruct (Nat.eq_dec i n) as [->|Hn].
          -- fold s. transitivity (fsub s (fmul (fmul (A n k) (finv (A n k))) s)); [unfold fopp; ring|].
             rewrite (finv_r HF) by exact Hp. ring.
          -- rewrite <- (Hsol i) by lia. unfold B.
             rewrite (sumn_ext m (fun j => fmul (fsub _ _) (y j))
               (fun j => fsub (fmul (A i (skip k j)) (y j))
                   (fmul (fmul (A i k) (finv (A n k))) (fmul (A n (skip k j)) (y j)))))
               by (intros j _; ring).
             rewrite sumn_sub, sumn_mul_l. fold s. unfold fopp. ring.
      + destruct (IH m A) as [x [Hx Hsol]]; [lia|].
        exists x. split; [exact Hx|]. intros i Hi.
        destruct (Nat.eq_dec i n) as [->|Hn]; [|apply Hsol; lia].
        apply sumn_zero. intros j Hj. rewrite Hz by exact Hj. ring.
  Qed.

  (** A square matrix with trivial kernel has a right inverse. *)
  Lemma nonsingular_right_inverse n A :
    nonsingular n A -> exists C, mat_eq n (mat_mul n A C) mat_id.
  Proof.
    intros HN.
    assert (Hcol : forall l, l < n -> exists c : nat -> F,
               forall i, i < n -> sumn n (fun j => fmul (A i j) (c j)) = if i =? l then f1 else f0).
    { intros l Hl.
      destruct (underdetermined n (S n) (fun i j => if j =? n then (if i =? l then f1 else f0) else A i j))
        as [x [[j0 [Hj0 Hx0]] Hsol]]; [lia|].
      assert (Hs : forall i, i < n ->
                fadd (sumn n (fun j => fmul (A i j) (x j))) (fmul (if i =? l then f1 else f0) (x n)) = f0).
      { intros i Hi. etransitivity; [|exact (Hsol i Hi)]. simpl. rewrite Nat.eqb_refl. f_equal.
        apply sumn_ext. intros j Hj. destruct (Nat.eqb_spec j n); [lia|reflexivity]. }
      destruct (feq_dec HF (x n) f0) as [E|E].
      - exfalso. apply Hx0. destruct (Nat.eq_dec j0 n) as [->|Hn]; [exact E|].
        apply (HN x); [|lia]. intros i Hi. etransitivity; [|exact (Hs i Hi)]. rewrite E. ring.
      - exists (fun j => fmul (fopp (finv (x n))) (x j)). intros i Hi.
        rewrite (sumn_ext n _ (fun j => fmul (fopp (finv (x n))) (fmul (A i j) (x j)))) by (intros; ring).
        rewrite sumn_mul_l.
        assert (Hv : sumn n (fun j => fmul (A i j) (x j)) = fopp (fmul (if i =? l then f1 else f0) (x n))).
        { apply (fsub_eq_0 HF). pose proof (Hs i Hi) as Hsi.
          set (c := if i =? l then f1 else f0) in *. unfold fopp.
          transitivity (fadd (sumn n (fun j => fmul (A i j) (x j))) (fmul c (x n))); [ring|exact Hsi]. }
        rewrite Hv. unfold fopp.
        transitivity (fmul (fmul (finv (x n)) (x n)) (if i =? l then f1 else f0)); [ring|].
        rewrite (ff_inv _ HF) by exact E. ring. }
    (* collect the columns *)
    assert (Hall : forall m, m <= n -> exists C : nat -> nat -> F, forall i l, i < n -> l < m ->
               sumn n (fun j => fmul (A i j) (C j l)) = if i =? l then f1 else f0).
    { induction m as [|m IH]; intros Hm.
      - exists (fun _ _ => f0). intros; lia.
      - destruct IH as [C HC]; [lia|]. destruct (Hcol m) as [c Hc]; [lia|].
        exists (fun j l => if l =? m then c j else C j l). intros i l Hi Hl.
        destruct (Nat.eqb_spec l m) as [->|Hn].
        + apply Hc; exact Hi.
        + apply HC; [exact Hi | lia]. }
    destruct (Hall n (le_n n)) as [C HC]. exists C. intros i j Hi Hj.
    unfold mat_mul, mat_id. apply HC; assumption.
  Qed.

  Lemma left_inverse_nonsingular n A B :
    mat_eq n (mat_mul n B A) mat_id -> nonsingular n A.
  Proof.
    intros HBA x Hx j Hj.
    transitivity (sumn n (fun l => fmul (mat_mul n B A j l) (x l))).
    - rewrite (sumn_ext n _ (fun l => fmul (if j =? l then f1 else f0) (x l))).
      + symmetry. apply (sumn_delta n j x); exact Hj.
      + intros l Hl. rewrite HBA by assumption. reflexivity.
    - unfold mat_mul.
      rewrite (sumn_ext n _ (fun l => sumn n (fun k => fmul (fmul (B j k) (A k l)) (x l))))
        by (intros l _; rewrite <- sumn_mul_r; reflexivity).
      rewrite sumn_swap. apply sumn_zero. intros k Hk.
      rewrite (sumn_ext n _ (fun l => fmul (B j k) (fmul (A k l) (x l)))) by (intros; ring).
      rewrite sumn_mul_l, Hx by exact Hk. ring.
  Qed.

  Theorem left_inverse_is_inverse n A B :
    mat_eq n (mat_mul n B A) mat_id -> is_inverse n A B.
  Proof.
    intros HBA. split; [|exact HBA].
    destruct (nonsingular_right_inverse n A (left_inverse_nonsingular n A B HBA)) as [C HC].
    assert (HBC : mat_eq n B C).
    { intros i j Hi Hj.
      rewrite <- (mat_mul_id_r n B i j Hj).
      transitivity (mat_mul n B (mat_mul n A C) i j).
      - apply mat_mul_ext; [reflexivity|]. intros k Hk. symmetry. apply HC; assumption.
      - rewrite mat_mul_assoc. transitivity (mat_mul n mat_id C i j).
        + apply mat_mul_ext; [|reflexivity]. intros k Hk. apply HBA; assumption.
        + apply mat_mul_id_l; exact Hi. }
    intros i j Hi Hj. rewrite <- (HC i j Hi Hj). apply mat_mul_ext; [reflexivity|].
    intros k Hk. apply HBC; assumption.
  Qed.

  Lemma nonsingular_invertible n A : nonsingular n A -> invertible n A.
  Proof.
    intros HN. destruct (nonsingular_right_inverse n A HN) as [C HC].
    exists C. destruct (left_inverse_is_inverse n C A HC) as [H1 H2]. split; assumption.
  Qed.

  Lemma invertible_nonsingular n A : invertible n A -> nonsingular n A.
  Proof. intros [B [_ H]]. eapply left_inverse_nonsingular; exact H. Qed.

  Lemma is_inverse_unique n A B C : is_inverse n A B -> is_inverse n A C -> mat_eq n B C.
  Proof.
    intros [_ HBA] [HAC _] i j Hi Hj.
    rewrite <- (mat_mul_id_r n B i j Hj).
    transitivity (mat_mul n B (mat_mul n A C) i j).
    - apply mat_mul_ext; [reflexivity|]. intros k Hk. symmetry. apply HAC; assumption.
    - rewrite mat_mul_assoc. transitivity (mat_mul n mat_id C i j).
      + apply mat_mul_ext; [|reflexivity]. intros k Hk. apply HBA; assumption.
      + apply mat_mul_id_l; exact Hi.
  Qed.

  Lemma mat_apply_inverse n A B x :
    mat_eq n (mat_mul n B A) mat_id -> length x = n ->
    mat_apply n n B (mat_apply n n A x) = x.
  Proof.
    intros H Hx. rewrite mat_apply_comp. rewrite <- (mat_apply_id n x Hx) at 2.
    apply mat_apply_ext; [exact H | reflexivity].
  Qed.

  (** a vector as a list *)
  Lemma nonsingular_lists n A :
    nonsingular n A <->
    forall x, length x = n -> mat_apply n n A x = repeat f0 n -> x = repeat f0 n.
  Proof.
    split.
    - intros HN x Hx E. apply (list_ext f0); [rewrite repeat_length; exact Hx|].
      intros i Hi. rewrite nth_repeat_same. rewrite Hx in Hi. apply (HN (fun j => nth j x f0)); [|exact Hi].
      intros k Hk. rewrite <- (mat_apply_nth n n A x k Hk), E. apply nth_repeat_same.
    - intros H x Hx j Hj.
      assert (E : map x (seq 0 n) = repeat f0 n).
      { apply H; [rewrite map_length, seq_length; reflexivity|].
        apply (list_ext f0); [rewrite mat_apply_length, repeat_length; reflexivity|].
        intros i Hi. rewrite mat_apply_length in Hi. rewrite mat_apply_nth, nth_repeat_same by exact Hi.
        rewrite <- (Hx i Hi). apply sumn_ext. intros k Hk. rewrite nth_map_seq by exact Hk. reflexivity. }
      rewrite <- (nth_map_seq x f0 n j Hj), E. apply nth_repeat_same.
  Qed.

  (** a matrix map is a bijection iff the matrix is nonsingular *)
  Lemma mat_apply_bijective n A :
    nonsingular n A -> bijective_on n (fun x => Ok (mat_apply n n A x)).
  Proof.
    intros HN. destruct (nonsingular_invertible n A HN) as [B [HAB HBA]]. repeat split.
    - intros x Hx. eexists; split; [reflexivity|apply mat_apply_length].
    - intros x x' y Hx Hx' E E'. rewrite <- (mat_apply_inverse n A B x HBA Hx).
      rewrite <- (mat_apply_inverse n A B x' HBA Hx'). congruence.
    - intros y Hy. exists (mat_apply n n B y). split; [apply mat_apply_length|].
      f_equal. apply mat_apply_inverse; assumption.
  Qed.
End LinAlg.
