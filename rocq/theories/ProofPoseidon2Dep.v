(** * ProofPoseidon2Dep: which parts of the parameters the permutation depends on *)
From Verif Require Import Base Field Spec LinAlg LoopLemmas ModelUtils ModelPoseidon2 SpecPoseidon2 ProofPoseidon2.

Section Dep.
  Context {F : Type} {Fo : FOps F} (HF : is_field Fo).

  Lemma p2_ref_full_agree t d c c' x : (forall i, i < t -> nth i c f0 = nth i c' f0) ->
    p2_ref_full t d c x = p2_ref_full t d c' x.
  Proof.
    intros H. unfold p2_ref_full. f_equal. apply map_seq_ext. intros i Hi. rewrite H by exact Hi. reflexivity.
  Qed.

  Lemma p2_ref_partial_agree t d g g' c c' x : nth 0 c f0 = nth 0 c' f0 ->
    (4 <= t -> forall i, i < t -> nth i g f0 = nth i g' f0) ->
    p2_ref_partial t d g c x = p2_ref_partial t d g' c' x.
  Proof.
    intros H Hg. unfold p2_ref_partial. rewrite H. apply mat_apply_ext; [|reflexivity].
    intros i j Hi Hj. unfold int_matrix. destruct (Nat.ltb_spec t 4) as [L|L]; [reflexivity|].
    rewrite Hg by assumption. reflexivity.
  Qed.

  Lemma p2_ref_agree t d rf rp g g' rc rc' x : p2_agree t rf rp g g' rc rc' ->
    p2_ref t d rf rp g rc x = p2_ref t d rf rp g' rc' x.
  Proof.
    intros [A [B C]]. unfold p2_ref.
    rewrite (fold_left_ext_in (fun s r => p2_ref_full t d (nth r rc []) s)
                              (fun s r => p2_ref_full t d (nth r rc' []) s) (seq 0 (rf / 2))).
    2:{ intros s r Hr. apply in_seq in Hr. apply p2_ref_full_agree. intros; apply A; lia. }
    set (s1 := fold_left _ _ (mat_apply t t (ext_matrix t) x)).
    rewrite (fold_left_ext_in (fun s r => p2_ref_partial t d g (nth r rc []) s)
                              (fun s r => p2_ref_partial t d g' (nth r rc' []) s) (seq (rf / 2) rp)).
    2:{ intros s r Hr. apply in_seq in Hr. apply p2_ref_partial_agree; [apply B; lia|exact C]. }
    apply fold_left_ext_in. intros s r Hr. apply in_seq in Hr. apply p2_ref_full_agree. intros; apply A; lia.
  Qed.

  Theorem p2_permutation_agree dbg t d rf rp g g' mi mi' rc rc' P P' x :
    p2_new dbg t d rf rp g mi rc = Ok P -> p2_new dbg t d rf rp g' mi' rc' = Ok P' ->
    (N.of_nat rf + N.of_nat rp < usize_mod)%N ->
    p2_data_ok t rf rp g rc -> p2_data_ok t rf rp g' rc' -> p2_agree t rf rp g g' rc rc' ->
    p2_permutation dbg P x = p2_permutation dbg P' x.
  Proof.
    intros H H' Hb D D' Ag.
    destruct (Nat.eq_dec (length x) t) as [Hx|Hx].
    2:{ rewrite (p2_permutation_panic HF dbg t d rf rp g mi rc P x H Hb) by tauto.
        rewrite (p2_permutation_panic HF dbg t d rf rp g' mi' rc' P' x H' Hb) by tauto. reflexivity. }
    destruct (p2_width_dec t) as [Hw|Hw].
    2:{ rewrite (p2_permutation_panic HF dbg t d rf rp g mi rc P x H Hb) by tauto.
        rewrite (p2_permutation_panic HF dbg t d rf rp g' mi' rc' P' x H' Hb) by tauto. reflexivity. }
    destruct (sbox_degree_dec d) as [Hd|Hd].
    - rewrite (p2_permutation_ref HF dbg t d rf rp g mi rc P x H) by assumption.
      rewrite (p2_permutation_ref HF dbg t d rf rp g' mi' rc' P' x H') by assumption.
      f_equal. apply p2_ref_agree. exact Ag.
    - destruct (Nat.eq_dec (rf + rp) 0) as [Z|Z].
      + assert (rf = 0 /\ rp = 0) as [-> ->] by lia.
        destruct (p2_new_ok _ _ _ _ _ _ _ _ _ H Hb) as [_ [_ ->]].
        destruct (p2_new_ok _ _ _ _ _ _ _ _ _ H' Hb) as [_ [_ ->]].
        unfold p2_permutation. cbn [p2_t p2_rounds_f_beginning p2_rounds_p p2_rounds].
        set (P1 := {| p2_t := t; p2_mat_internal := mi |}). set (P2 := {| p2_t := t; p2_mat_internal := mi' |}).
        rewrite (p2_matmul_external_ok HF P1 x Hw Hx), (p2_matmul_external_ok HF P2 x Hw Hx). reflexivity.
      + rewrite (p2_permutation_panic HF dbg t d rf rp g mi rc P x H Hb) by tauto.
        rewrite (p2_permutation_panic HF dbg t d rf rp g' mi' rc' P' x H' Hb) by tauto. reflexivity.
  Qed.

  (** mat_internal is never read *)
  Theorem p2_mat_internal_unused dbg t d rf rp g mi mi' rc P P' x :
    p2_new dbg t d rf rp g mi rc = Ok P -> p2_new dbg t d rf rp g mi' rc = Ok P' ->
    p2_permutation dbg P x = p2_permutation dbg P' x.
  Proof.
    unfold p2_new. destruct (_ || _); [|discriminate]. destruct (rf mod 2 =? 0); [|discriminate].
    cbn [assert bind]. destruct (uadd dbg rf rp); try discriminate. cbn [bind].
    intros H H'. inversion H; inversion H'. reflexivity.
  Qed.
End Dep.
