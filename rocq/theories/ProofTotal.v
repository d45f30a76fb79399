(** * ProofTotal: the rejections of the constructors and matrix routines on malformed sizes *)
From Verif Require Import Base Field ModelUtils ModelPoseidon2 ModelPoseidon.

(** no loop of these functions is unbounded: the outcome is a value or a panic *)
Definition ends {A} (r : res A) : Prop := r <> Fuel.

Lemma ends_bind {A B} (m : res A) (k : A -> res B) : ends m -> (forall a, ends (k a)) -> ends (bind m k).
Proof. unfold ends. intros H K. destruct m; simpl; [apply K|discriminate|congruence]. Qed.
Lemma ends_for_list {X St} (l : list X) (b : X -> St -> res St) : (forall x s, ends (b x s)) -> forall s, ends (for_list l b s).
Proof. intros H. induction l as [|x l IH]; intros s; simpl; [discriminate|]. apply ends_bind; [apply H|exact IH]. Qed.
Lemma ends_for_range {St} lo hi (b : nat -> St -> res St) : (forall x s, ends (b x s)) -> forall s, ends (for_range lo hi b s).
Proof. intros H s. apply ends_for_list, H. Qed.
Lemma ends_for_range_rev {St} lo hi (b : nat -> St -> res St) : (forall x s, ends (b x s)) -> forall s, ends (for_range_rev lo hi b s).
Proof. intros H s. apply ends_for_list, H. Qed.
Lemma ends_ok {A} (a : A) : ends (Ok a). Proof. discriminate. Qed.
Lemma ends_panic {A} : @ends A Panic. Proof. discriminate. Qed.
Lemma ends_assert b : ends (assert b). Proof. destruct b; discriminate. Qed.
Lemma ends_debug_assert d b : ends (debug_assert d b). Proof. destruct d, b; discriminate. Qed.
Lemma ends_idx {A} (l : list A) i : ends (idx l i). Proof. unfold idx. destruct (nth_error l i); discriminate. Qed.
Lemma ends_upd {A} (l : list A) i v : ends (upd l i v). Proof. unfold upd. destruct (i <? length l); discriminate. Qed.
Lemma ends_unwrap {A} (o : option A) : ends (unwrap o). Proof. destruct o; discriminate. Qed.
Lemma ends_idx2 {A} (m : list (list A)) i j : ends (idx2 m i j).
Proof. apply ends_bind; [apply ends_idx|intros; apply ends_idx]. Qed.
Lemma ends_upd2 {A} (m : list (list A)) i j v : ends (upd2 m i j v).
Proof. apply ends_bind; [apply ends_idx|]. intros. apply ends_bind; intros; apply ends_upd. Qed.
Lemma ends_uadd d a b : ends (uadd d a b).
Proof. unfold uadd. destruct (_ <? _)%N; [discriminate|destruct d; discriminate]. Qed.
Lemma ends_usub d a b : ends (usub d a b).
Proof. unfold usub. destruct (_ <=? _); [discriminate|destruct d; discriminate]. Qed.
Lemma ends_cases {A} (r : res A) : ends r -> (exists a, r = Ok a) \/ r = Panic.
Proof. unfold ends. destruct r; [eauto|auto|congruence]. Qed.

Ltac ends :=
  repeat (first
    [ apply ends_ok | apply ends_panic | apply ends_assert | apply ends_debug_assert | apply ends_idx | apply ends_idx2
    | apply ends_upd | apply ends_upd2 | apply ends_unwrap | apply ends_uadd | apply ends_usub
    | apply ends_bind | apply ends_for_range | apply ends_for_range_rev | apply ends_for_list
    | match goal with
      | |- forall _, _ => intro
      | |- ends (if ?b then _ else _) => destruct b
      | |- ends (match ?b with _ => _ end) => destruct b
      | |- ends ((match ?b with _ => _ end) _) => destruct b
      end ]).

Section Total.
  Context {F : Type} {Fo : FOps F}.

  Lemma mat_inverse_ends dbg (m : list (list F)) : ends (mat_inverse dbg m).
  Proof.
    unfold mat_inverse, mi_identity, mi_down_row, mi_down_j, mi_down_col, mi_scale_col, mi_up_row, mi_up_j, mi_up_col, mi_debug_check.
    ends.
  Qed.
  Lemma mat_vec_mul_ends dbg (A : list (list F)) x : ends (mat_vec_mul dbg A x).
  Proof. unfold mat_vec_mul. ends. Qed.
  Lemma mat_mat_mul_ends (A B : list (list F)) : ends (mat_mat_mul A B).
  Proof. unfold mat_mat_mul. ends. Qed.
  Lemma mat_transpose_ends (A : list (list F)) : ends (mat_transpose A).
  Proof. unfold mat_transpose. ends. Qed.

  Local Opaque mat_inverse mat_transpose mat_vec_mul mat_mat_mul.
  Lemma ps_new_ends dbg t d rf rp (mds rc : list (list F)) : ends (ps_new dbg t d rf rp mds rc).
  Proof.
    unfold ps_new, ps_equivalent_matrices, ps_equivalent_round_constants, ps_eqmat_body, ps_split, ps_next_m_i.
    repeat first [apply mat_inverse_ends | apply mat_transpose_ends | apply mat_vec_mul_ends | apply mat_mat_mul_ends | progress ends].
  Qed.

  Local Transparent mat_inverse mat_transpose mat_vec_mul mat_mat_mul.

  Lemma mat_inverse_not_square dbg (m : list (list F)) :
    length (nth 0 m []) <> length m -> mat_inverse dbg m = Panic.
  Proof.
    intros H. destruct m as [|r m]; [reflexivity|]. unfold mat_inverse. cbn [nth] in H.
    cbn [idx nth_error bind]. destruct (Nat.eqb_spec (length r) (length (r :: m))) as [E|E]; [contradiction|reflexivity].
  Qed.

  Lemma ps_new_wrong_size dbg t d rf rp (mds rc : list (list F)) :
    length mds <> t \/ length (nth 0 mds []) <> t -> ps_new dbg t d rf rp mds rc = Panic.
  Proof.
    intros H. destruct (ends_cases _ (ps_new_ends dbg t d rf rp mds rc)) as [[P E]|E]; [exfalso|exact E].
    unfold ps_new in E. inv_ok E. inv_ok E. inv_ok E. inv_ok E. inv_ok E. destruct a3 as [[mi v] w]. inv_ok E. destruct a, a0, a1.
    apply assert_ok, Nat.eqb_eq in E1. destruct H as [H|H]; [contradiction|].
    unfold ps_equivalent_round_constants in E5. inv_ok E5. rewrite mat_inverse_not_square in E6 by congruence. discriminate.
  Qed.

  Lemma mat_vec_mul_debug_size (A : list (list F)) x :
    length x <> length A -> mat_vec_mul true A x = Panic.
  Proof.
    intros H. unfold mat_vec_mul. destruct (Nat.eqb_spec (length A) (length x)) as [E|E]; [congruence|reflexivity].
  Qed.
End Total.
