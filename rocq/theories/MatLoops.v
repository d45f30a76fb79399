(** * MatLoops: entries and updates of matrices stored as vectors of rows *)
From Verif Require Import Base Field Spec LinAlg LoopLemmas.

Section MatLoops.
  Context {F : Type} {Fo : FOps F}.

  (** the r x c matrix with entries f *)
  Definition mk_mat (r c : nat) (f : nat -> nat -> F) : list (list F) :=
    map (fun i => map (f i) (seq 0 c)) (seq 0 r).

  Lemma mk_mat_dims r c f : dims r c (mk_mat r c f).
  Proof.
    unfold mk_mat. split; [rewrite map_length, seq_length; reflexivity|].
    intros i Hi. rewrite nth_map_seq by exact Hi. rewrite map_length, seq_length. reflexivity.
  Qed.
  Lemma mk_mat_entry r c f i j : i < r -> j < c -> entry (mk_mat r c f) i j = f i j.
  Proof. intros Hi Hj. unfold entry, mk_mat. rewrite nth_map_seq by exact Hi. apply nth_map_seq; exact Hj. Qed.
  Lemma mk_mat_ext r c f g : (forall i j, i < r -> j < c -> f i j = g i j) -> mk_mat r c f = mk_mat r c g.
  Proof. intros H. apply map_seq_ext. intros i Hi. apply map_seq_ext. intros j Hj. apply H; assumption. Qed.
  Lemma mat_as_mk r c m : dims r c m -> m = mk_mat r c (entry m).
  Proof.
    intros [Hl Hr]. unfold mk_mat. rewrite (list_as_map [] m) at 1. rewrite Hl. apply map_seq_ext. intros i Hi.
    rewrite (list_as_map f0 (nth i m [])) at 1. rewrite Hr by exact Hi. reflexivity.
  Qed.
  Lemma mat_ext r c m m' : dims r c m -> dims r c m' ->
    (forall i j, i < r -> j < c -> entry m i j = entry m' i j) -> m = m'.
  Proof. intros H H' E. rewrite (mat_as_mk r c m H), (mat_as_mk r c m' H'). apply mk_mat_ext. exact E. Qed.

  Lemma mk_mat_length r c f : length (mk_mat r c f) = r.
  Proof. apply mk_mat_dims. Qed.
  Lemma mk_mat_row r c f i : i < r -> nth i (mk_mat r c f) [] = map (f i) (seq 0 c).
  Proof. intros H. unfold mk_mat. rewrite nth_map_seq by exact H. reflexivity. Qed.

  Lemma idx2_mk r c f i j : i < r -> j < c -> idx2 (mk_mat r c f) i j = Ok (f i j).
  Proof.
    intros Hi Hj. unfold idx2. rewrite (idx_ok []) by (rewrite mk_mat_length; exact Hi). cbn [bind].
    rewrite mk_mat_row by exact Hi. rewrite (idx_ok f0) by (rewrite map_length, seq_length; exact Hj).
    f_equal. apply nth_map_seq; exact Hj.
  Qed.
  Lemma idx2_mk_panic_r r c f i j : r <= i -> idx2 (mk_mat r c f) i j = Panic.
  Proof. intros H. unfold idx2. rewrite idx_panic by (rewrite mk_mat_length; exact H). reflexivity. Qed.
  Lemma idx2_mk_panic_c r c f i j : c <= j -> idx2 (mk_mat r c f) i j = Panic.
  Proof.
    intros H. destruct (le_lt_dec r i) as [L|L]; [apply idx2_mk_panic_r; exact L|].
    unfold idx2. rewrite (idx_ok []) by (rewrite mk_mat_length; exact L). cbn [bind].
    rewrite mk_mat_row by exact L. apply idx_panic. rewrite map_length, seq_length. exact H.
  Qed.

  Definition fupd (f : nat -> nat -> F) (i j : nat) (v : F) : nat -> nat -> F :=
    fun a b => if (a =? i) && (b =? j) then v else f a b.

  Lemma upd2_mk r c f i j v : i < r -> j < c -> upd2 (mk_mat r c f) i j v = Ok (mk_mat r c (fupd f i j v)).
  Proof.
    intros Hi Hj. unfold upd2. rewrite (idx_ok []) by (rewrite mk_mat_length; exact Hi). cbn [bind].
    rewrite mk_mat_row by exact Hi. rewrite upd_ok by (rewrite map_length, seq_length; exact Hj). cbn [bind].
    rewrite upd_ok by (rewrite mk_mat_length; exact Hi). f_equal.
    apply (list_ext []); [rewrite set_nth_length by (rewrite mk_mat_length; exact Hi); rewrite !mk_mat_length; reflexivity|].
    intros k Hk. rewrite set_nth_length, mk_mat_length in Hk by (rewrite mk_mat_length; exact Hi).
    rewrite set_nth_nth by (rewrite mk_mat_length; exact Hi). rewrite !mk_mat_row by exact Hk.
    destruct (Nat.eqb_spec k i) as [->|N].
    - apply (list_ext f0); [rewrite set_nth_length; rewrite !map_length, !seq_length; [reflexivity|exact Hj]|].
      intros l Hl. rewrite set_nth_length, map_length, seq_length in Hl by (rewrite map_length, seq_length; exact Hj).
      rewrite set_nth_nth by (rewrite map_length, seq_length; exact Hj). rewrite !nth_map_seq by exact Hl.
      unfold fupd. rewrite Nat.eqb_refl. reflexivity.
    - apply map_seq_ext. intros l Hl. unfold fupd. destruct (Nat.eqb_spec k i); [contradiction|reflexivity].
  Qed.

  Lemma zero_mat r c : repeat (repeat (f0 : F) c) r = mk_mat r c (fun _ _ => f0).
  Proof.
    assert (Z : forall A (a : A) n, repeat a n = map (fun _ => a) (seq 0 n)).
    { intros A a n. generalize 0. induction n as [|n IH]; intros k; simpl; [reflexivity|]. f_equal. apply IH. }
    unfold mk_mat. rewrite (Z _ _ r). apply map_ext. intros i. apply Z.
  Qed.

  Lemma dims_idx0 n c (m : list (list F)) : dims n c m -> 0 < n -> exists r0 : list F, idx m 0 = Ok r0 /\ length r0 = c.
  Proof.
    intros [Hl Hr] Hn. exists (nth 0 m []). split; [apply idx_ok; lia|apply Hr; exact Hn].
  Qed.

  Lemma seq_repeat_f0 n : repeat (f0 : F) n = map (fun _ => f0) (seq 0 n).
  Proof. generalize 0. induction n as [|n IH]; intros k; simpl; [reflexivity|]. f_equal. apply IH. Qed.
End MatLoops.
