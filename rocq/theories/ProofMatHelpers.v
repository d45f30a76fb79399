(** * mat_transpose, mat_vec_mul, mat_mat_mul, matmul (C21) *)
From Verif Require Import Base Field Spec LinAlg LoopLemmas MatLoops ModelUtils ModelPoseidon2 ModelPoseidon.

Section MatHelpers.
  Context {F : Type} {Fo : FOps F} (HF : is_field Fo).
  Add Ring FringMH : (ff_ring _ HF).

  (** [mat_vec_mul]: the row loop reads [length input] entries of each row *)
  Lemma mat_vec_mul_ok dbg (mat : list (list F)) (x : list F) :
    (dbg = true -> length mat = length x) ->
    (forall i, i < length mat -> length x <= length (nth i mat [])) ->
    mat_vec_mul dbg mat x = Ok (mat_apply (length mat) (length x) (entry mat) x).
  Proof.
    intros Hd Hr. unfold mat_vec_mul.
    assert (E : debug_assert dbg (length mat =? length x) = Ok tt).
    { destruct dbg; [|reflexivity]. rewrite Hd by reflexivity. rewrite Nat.eqb_refl. reflexivity. }
    rewrite E. cbn [bind]. unfold mat_apply.
    apply (for_range_rows (length mat) (length x) (fun i j => fmul (entry mat i j) (nth j x f0))).
    intros row s Hrow Hs H0. rewrite (for_list_enumerate f0).
    rewrite (for_range_acc HF row 0 (length x) (fun j => fmul (entry mat row j) (nth j x f0))).
    - rewrite H0, Nat.sub_0_r. do 2 f_equal. simpl. ring.
    - lia.
    - lia.
    - intros i s' Hi Hl _. unfold idx2. rewrite (idx_ok []) by exact Hrow. cbn [bind].
      rewrite (idx_ok f0) by (specialize (Hr row Hrow); lia). cbn [bind].
      rewrite (idx_ok f0) by lia. reflexivity.
  Qed.

  Lemma mat_vec_mul_debug (mat : list (list F)) (x : list F) y :
    mat_vec_mul true mat x = Ok y -> length mat = length x.
  Proof.
    unfold mat_vec_mul. intros H. destruct (Nat.eqb_spec (length mat) (length x)) as [E|E]; [exact E|discriminate].
  Qed.

  Lemma mat_vec_mul_spec dbg n m (A : list (list F)) (x : list F) :
    dims n m A -> length x = m -> (dbg = true -> n = m) ->
    mat_vec_mul dbg A x = Ok (mat_apply n m (entry A) x).
  Proof.
    intros [Hl Hr] Hx Hd. rewrite mat_vec_mul_ok; [rewrite Hl, Hx; reflexivity|intros E; rewrite Hl, Hx; auto|].
    intros i Hi. rewrite Hr, Hx by lia. lia.
  Qed.

  (** a longer input makes some row access panic *)
  Lemma mat_vec_mul_long dbg (mat : list (list F)) (x : list F) :
    mat <> [] -> length (nth 0 mat []) < length x -> mat_vec_mul dbg mat x = Panic.
  Proof.
    intros Hm Hl. unfold mat_vec_mul.
    destruct (debug_assert dbg (length mat =? length x)) eqn:E; cbn [bind];
      [|reflexivity|destruct dbg; [destruct (length mat =? length x)|]; discriminate E].
    destruct mat as [|r0 mat]; [contradiction|]. cbn [nth] in Hl. cbn [length].
    rewrite for_range_step by lia. rewrite (for_list_enumerate f0).
    assert (EE : for_range 0 (length x)
      (fun i out => tmp <- idx2 (r0 :: mat) 0 i ;; x0 <- idx out 0 ;; upd out 0 (fadd x0 (fmul tmp (nth i x f0))))
      (repeat f0 (S (length mat))) = Panic).
    { destruct (for_range_inv (fun _ s => length s = S (length mat)) 0 (length r0)
        (fun i out => tmp <- idx2 (r0 :: mat) 0 i ;; x0 <- idx out 0 ;; upd out 0 (fadd x0 (fmul tmp (nth i x f0))))
        (repeat f0 (S (length mat)))) as [s [Es Hs]].
      - lia.
      - apply repeat_length.
      - intros i s Hi Hs. unfold idx2. cbn [idx nth_error bind]. rewrite (idx_ok f0) by lia. cbn [bind].
        rewrite (idx_ok f0) by lia. cbn [bind]. rewrite upd_ok by lia. eexists. split; [reflexivity|].
        rewrite set_nth_length by lia. exact Hs.
      - apply (for_range_panic 0 (length r0) (length x) _ _ s); [lia|exact Es|].
        unfold idx2. cbn [idx nth_error bind]. rewrite idx_panic by lia. reflexivity. }
    rewrite EE. reflexivity.
  Qed.

  (** [Poseidon::matmul] *)
  Lemma ps_matmul_ok dbg (mat : list (list F)) (x : list F) :
    (dbg = true -> length mat = length x) ->
    (forall i, i < length mat -> Nat.min (length mat) (length x) <= length (nth i mat [])) ->
    ps_matmul dbg x mat = Ok (mat_apply (length mat) (Nat.min (length mat) (length x)) (entry mat) x).
  Proof.
    intros Hd Hr. unfold ps_matmul.
    assert (E : debug_assert dbg (length mat =? length x) = Ok tt).
    { destruct dbg; [|reflexivity]. rewrite Hd by reflexivity. rewrite Nat.eqb_refl. reflexivity. }
    rewrite E. cbn [bind]. unfold mat_apply. set (m := Nat.min (length mat) (length x)) in *.
    assert (EL : firstn (length mat) (combine (seq 0 (length x)) x) = map (fun i => (i, nth i x f0)) (seq 0 m)).
    { rewrite (combine_seq_nth f0). rewrite firstn_map. f_equal.
      replace (length x) with (m + (length x - m)) by lia. rewrite seq_app.
      destruct (le_lt_dec (length mat) (length x)) as [L|L].
      - assert (m = length mat) by lia. rewrite firstn_app, seq_length.
        replace (length mat - m) with 0 by lia. rewrite firstn_O, app_nil_r. apply firstn_all2. rewrite seq_length. lia.
      - assert (m = length x) by lia. replace (length x - m) with 0 by lia. rewrite app_nil_r. apply firstn_all2. rewrite seq_length. lia. }
    apply (for_range_rows (length mat) m (fun i j => fmul (entry mat i j) (nth j x f0))).
    intros row s Hrow Hs H0. rewrite EL, for_list_map.
    replace (seq 0 m) with (seq 0 (m - 0)) by (rewrite Nat.sub_0_r; reflexivity).
    match goal with |- for_list (seq 0 (m - 0)) ?b s = _ => change (for_range 0 m b s = Ok (set_nth s row (sumn m (fun j => fmul (entry mat row j) (nth j x f0))))) end.
    rewrite (for_range_acc HF row 0 m (fun j => fmul (entry mat row j) (nth j x f0))).
    - rewrite H0, Nat.sub_0_r. do 2 f_equal. simpl. ring.
    - lia.
    - lia.
    - intros i s' Hi Hl _. unfold idx2. rewrite (idx_ok []) by exact Hrow. cbn [bind].
      rewrite (idx_ok f0) by (specialize (Hr row Hrow); lia). cbn [bind].
      rewrite (idx_ok f0) by lia. reflexivity.
  Qed.

  Lemma ps_matmul_debug (mat : list (list F)) (x : list F) y :
    ps_matmul true x mat = Ok y -> length mat = length x.
  Proof.
    unfold ps_matmul. intros H. destruct (Nat.eqb_spec (length mat) (length x)) as [E|E]; [exact E|discriminate].
  Qed.

  (** [mat_mat_mul] *)
  Lemma mat_mat_mul_ok (A B : list (list F)) t : length A = t ->
    (forall i, i < t -> length B <= length (nth i A [])) ->
    (forall i, i < length B -> t <= length (nth i B [])) ->
    mat_mat_mul A B = Ok (mk_mat t t (mat_mul (length B) (entry A) (entry B))).
  Proof.
    intros HA Hra Hrb. unfold mat_mat_mul. rewrite HA, zero_mat.
    set (C := mat_mul (length B) (entry A) (entry B)).
    destruct (for_range_inv (fun k m => m = mk_mat t t (fun i j => if i <? k then C i j else f0)) 0 t
      (fun row out => for_range 0 t (fun col1 out =>
        for_list (combine (seq 0 (length B)) B) (fun '(col2, m2) out =>
          tmp <- idx2 A row col2 ;; y <- idx m2 col1 ;; x <- idx2 out row col1 ;;
          upd2 out row col1 (fadd x (fmul tmp y))) out) out) (mk_mat t t (fun _ _ => f0))) as [s [E ->]].
    - lia.
    - reflexivity.
    - intros row s Hrow ->.
      destruct (for_range_inv (fun k m => m = mk_mat t t (fun i j => if (i <? row) || ((i =? row) && (j <? k)) then C i j else f0)) 0 t
        (fun col1 out =>
          for_list (combine (seq 0 (length B)) B) (fun '(col2, m2) out =>
            tmp <- idx2 A row col2 ;; y <- idx m2 col1 ;; x <- idx2 out row col1 ;;
            upd2 out row col1 (fadd x (fmul tmp y))) out) (mk_mat t t (fun i j => if i <? row then C i j else f0))) as [s [E ->]].
      + lia.
      + apply mk_mat_ext. intros i j _ _. rewrite andb_false_r, orb_false_r. reflexivity.
      + intros c s Hc ->. rewrite (for_list_enumerate []).
        destruct (for_range_inv (fun k m => m = mk_mat t t (fun i j =>
            if (i =? row) && (j =? c) then sumn k (fun l => fmul (entry A row l) (entry B l c))
            else if (i <? row) || ((i =? row) && (j <? c)) then C i j else f0)) 0 (length B)
          (fun i out => tmp <- idx2 A row i ;; y <- idx (nth i B []) c ;; x <- idx2 out row c ;;
             upd2 out row c (fadd x (fmul tmp y)))
          (mk_mat t t (fun i j => if (i <? row) || ((i =? row) && (j <? c)) then C i j else f0))) as [s [E ->]].
        * lia.
        * apply mk_mat_ext. intros i j _ _. simpl.
          destruct (Nat.eqb_spec i row), (Nat.eqb_spec j c), (Nat.ltb_spec i row), (Nat.ltb_spec j c); cbn [andb orb]; try lia; reflexivity.
        * intros l s Hl ->. unfold idx2 at 1. rewrite (idx_ok []) by lia. cbn [bind].
          rewrite (idx_ok f0) by (specialize (Hra row ltac:(lia)); lia). cbn [bind].
          rewrite (idx_ok f0) by (specialize (Hrb l ltac:(lia)); lia). cbn [bind].
          rewrite idx2_mk by lia. cbn [bind]. rewrite upd2_mk by lia. eexists. split; [reflexivity|].
          apply mk_mat_ext. intros i j Hi Hj. unfold fupd. rewrite !Nat.eqb_refl. cbn [andb].
          destruct ((i =? row) && (j =? c)); [|reflexivity]. cbn [sumn]. reflexivity.
        * rewrite E. eexists. split; [reflexivity|]. apply mk_mat_ext. intros i j Hi Hj. unfold C, mat_mul.
          destruct (Nat.eqb_spec i row), (Nat.eqb_spec j c), (Nat.ltb_spec i row), (Nat.ltb_spec j c), (Nat.ltb_spec j (S c));
            cbn [andb orb]; try lia; subst; reflexivity.
      + rewrite E. eexists. split; [reflexivity|]. apply mk_mat_ext. intros i j Hi Hj.
        destruct (Nat.eqb_spec i row), (Nat.ltb_spec j t), (Nat.ltb_spec i row), (Nat.ltb_spec i (S row)); cbn [andb orb]; try lia; reflexivity.
    - rewrite E. f_equal. apply mk_mat_ext. intros i j Hi Hj. destruct (Nat.ltb_spec i t); [reflexivity|lia].
  Qed.

  Lemma mat_mat_mul_spec n m (A B : list (list F)) : dims n m A -> dims m n B ->
    exists C, mat_mat_mul A B = Ok C /\ dims n n C /\
              forall i j, i < n -> j < n -> entry C i j = mat_mul m (entry A) (entry B) i j.
  Proof.
    intros [Hl Hr] [Hl' Hr']. exists (mk_mat n n (mat_mul m (entry A) (entry B))). split; [|split].
    - rewrite <- Hl' at 1. apply mat_mat_mul_ok; [exact Hl| |].
      + intros i Hi. rewrite Hr by exact Hi. lia.
      + intros i Hi. rewrite Hr' by lia. lia.
    - apply mk_mat_dims.
    - intros i j Hi Hj. rewrite mk_mat_entry by assumption. reflexivity.
  Qed.

  (** [mat_transpose] *)
  Lemma mat_transpose_ok (m : list (list F)) r c : length m = r -> 1 <= r -> length (nth 0 m []) = c ->
    (forall i, i < r -> c <= length (nth i m [])) ->
    mat_transpose m = Ok (mk_mat c r (fun i j => entry m j i)).
  Proof.
    intros Hl Hr H0 Hrow. unfold mat_transpose. rewrite (idx_ok []) by lia. cbn [bind]. rewrite H0, zero_mat.
    rewrite (for_list_enumerate []), Hl.
    destruct (for_range_inv (fun k s => s = mk_mat c r (fun i j => if j <? k then entry m j i else f0)) 0 r
      (fun row tr => for_range 0 c (fun col tr => x <- idx (nth row m []) col ;; upd2 tr col row x) tr)
      (mk_mat c r (fun _ _ => f0))) as [s [E ->]].
    - lia.
    - apply mk_mat_ext. intros; reflexivity.
    - intros row s Hk ->.
      destruct (for_range_inv (fun k s => s = mk_mat c r (fun i j => if (j <? row) || ((j =? row) && (i <? k)) then entry m j i else f0)) 0 c
        (fun col tr => x <- idx (nth row m []) col ;; upd2 tr col row x)
        (mk_mat c r (fun i j => if j <? row then entry m j i else f0))) as [s [E ->]].
      + lia.
      + apply mk_mat_ext. intros i j _ _. rewrite andb_false_r, orb_false_r. reflexivity.
      + intros col s Hc ->. rewrite (idx_ok f0) by (specialize (Hrow row ltac:(lia)); lia). cbn [bind].
        rewrite upd2_mk by lia. eexists. split; [reflexivity|]. apply mk_mat_ext. intros i j Hi Hj. unfold fupd.
        destruct (Nat.eqb_spec i col), (Nat.eqb_spec j row), (Nat.ltb_spec j row), (Nat.ltb_spec i col), (Nat.ltb_spec i (S col));
          cbn [andb orb]; try lia; subst; reflexivity.
      + rewrite E. eexists. split; [reflexivity|]. apply mk_mat_ext. intros i j Hi Hj.
        destruct (Nat.eqb_spec j row), (Nat.ltb_spec j row), (Nat.ltb_spec i c), (Nat.ltb_spec j (S row)); cbn [andb orb]; try lia; reflexivity.
    - rewrite E. f_equal. apply mk_mat_ext. intros i j Hi Hj. destruct (Nat.ltb_spec j r); [reflexivity|lia].
  Qed.

  Lemma mat_transpose_spec (m : list (list F)) r c : dims r c m -> 1 <= r ->
    exists m', mat_transpose m = Ok m' /\ dims c r m' /\ forall i j, i < c -> j < r -> entry m' i j = entry m j i.
  Proof.
    intros [Hl Hd] Hr. exists (mk_mat c r (fun i j => entry m j i)). split; [|split].
    - apply mat_transpose_ok; [exact Hl|exact Hr|apply Hd; lia|]. intros i Hi. rewrite Hd by exact Hi. lia.
    - apply mk_mat_dims.
    - intros i j Hi Hj. rewrite mk_mat_entry by assumption. reflexivity.
  Qed.

  Lemma mat_transpose_involutive (m : list (list F)) r c : dims r c m -> 1 <= r -> 1 <= c ->
    exists m', mat_transpose m = Ok m' /\ mat_transpose m' = Ok m.
  Proof.
    intros Hd Hr Hc. destruct (mat_transpose_spec m r c Hd Hr) as [m' [E [Hd' He]]].
    exists m'. split; [exact E|]. destruct (mat_transpose_spec m' c r Hd' Hc) as [m2 [E2 [Hd2 He2]]].
    rewrite E2. f_equal. apply (mat_ext r c); [exact Hd2|exact Hd|]. intros i j Hi Hj. rewrite He2 by assumption. apply He; assumption.
  Qed.

  (** a zero-column matrix does not survive two transpositions *)
  Lemma mat_transpose_empty (m : list (list F)) r : dims r 0 m -> 1 <= r -> mat_transpose m = Ok [].
  Proof.
    intros [Hl Hd] Hr. rewrite (mat_transpose_ok m r 0); [reflexivity|exact Hl|exact Hr|apply Hd; lia|intros; lia].
  Qed.
End MatHelpers.
