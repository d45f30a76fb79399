(** * Further Poseidon2 facts: exact outcome, overflow of the round count, surplus data *)
From Verif Require Import Base Field Spec FieldPow LinAlg LoopLemmas ModelUtils ModelPoseidon2
  SpecPoseidon2 ProofPoseidon2 ProofPoseidon2Dep.

Section Extra.
  Context {F : Type} {Fo : FOps F} (HF : is_field Fo).

  Lemma fold_left_length {A} t (g : list F -> A -> list F) l : forall s : list F,
    (forall s a, length (g s a) = t) -> length s = t -> length (fold_left g l s) = t.
  Proof. induction l as [|a l IH]; intros s H Hs; [exact Hs|]. apply IH; auto. Qed.

  Lemma p2_ref_length t d rf rp diag rc (x : list F) : length (p2_ref t d rf rp diag rc x) = t.
  Proof.
    unfold p2_ref. apply fold_left_length; [intros; apply p2_ref_full_length|].
    apply fold_left_length; [intros; apply p2_ref_partial_length|].
    apply fold_left_length; [intros; apply p2_ref_full_length|]. apply mat_apply_length.
  Qed.

  Lemma p2_permutation_norounds dbg t d rf rp (diag : list F) (mi rc : list (list F)) P x :
    p2_new dbg t d rf rp diag mi rc = Ok P -> rf + rp = 0 -> p2_width t -> length x = t ->
    p2_permutation dbg P x = Ok (p2_ref t d rf rp diag rc x).
  Proof.
    intros H Hz Hw Hx. assert (rf = 0 /\ rp = 0) as [-> ->] by lia.
    destruct (p2_new_ok _ _ _ _ _ _ _ _ _ H) as [_ [_ ->]]; [vm_compute; reflexivity|].
    unfold p2_permutation. cbn [p2_t p2_rounds_f_beginning p2_rounds_p p2_rounds].
    set (P1 := {| p2_t := t |}).
    rewrite (p2_matmul_external_ok HF P1 x Hw Hx), Hx, Nat.eqb_refl. reflexivity.
  Qed.

  Theorem p2_permutation_exact dbg t d rf rp (diag : list F) (mi rc : list (list F)) P x :
    p2_new dbg t d rf rp diag mi rc = Ok P ->
    (N.of_nat rf + N.of_nat rp < usize_mod)%N ->
    (length x = t /\ p2_width t /\ (rf + rp = 0 \/ sbox_degree d) /\ p2_data_ok t rf rp diag rc
     /\ p2_permutation dbg P x = Ok (p2_ref t d rf rp diag rc x)
     /\ length (p2_ref t d rf rp diag rc x) = t) \/
    (~ (length x = t /\ p2_width t /\ (rf + rp = 0 \/ sbox_degree d) /\ p2_data_ok t rf rp diag rc)
     /\ p2_permutation dbg P x = Panic).
  Proof.
    intros H Hb.
    destruct (Nat.eq_dec (length x) t) as [Hx|Hx].
    2:{ right. split; [tauto|]. apply (p2_permutation_panic HF _ _ _ _ _ _ _ _ _ _ H Hb). tauto. }
    destruct (p2_width_dec t) as [Hw|Hw].
    2:{ right. split; [tauto|]. apply (p2_permutation_panic HF _ _ _ _ _ _ _ _ _ _ H Hb). tauto. }
    destruct (Nat.eq_dec (rf + rp) 0) as [Hz|Hz].
    { left. assert (rf = 0) by lia. assert (rp = 0) by lia. subst rf rp.
      assert (D : p2_data_ok t 0 0 diag rc).
      { split; [|split]; intros; exfalso; cbn in *; lia. }
      split; [exact Hx|]. split; [exact Hw|]. split; [left; exact Hz|]. split; [exact D|]. split.
      - apply (p2_permutation_norounds _ _ _ _ _ _ _ _ _ _ H); assumption.
      - apply p2_ref_length. }
    destruct (sbox_degree_dec d) as [Hd|Hd].
    2:{ right. split; [tauto|]. apply (p2_permutation_panic HF _ _ _ _ _ _ _ _ _ _ H Hb). tauto. }
    assert (D : {p2_data_ok t rf rp diag rc} + {~ p2_data_ok t rf rp diag rc}).
    { set (okf := fun r => t <= length (nth r rc [])). set (okp := fun r => 1 <= length (nth r rc [])).
      assert (all_dec : forall n (k : nat), {forall r, k <= r < k + n -> okf r} + {~ forall r, k <= r < k + n -> okf r}).
      { intros n k. induction n as [|n IH]; [left; intros; lia|].
        destruct IH as [Y|N]; [|right; intros C; apply N; intros; apply C; lia].
        destruct (le_lt_dec t (length (nth (k + n) rc []))) as [L|L].
        - left. intros r Hr. destruct (Nat.eq_dec r (k + n)) as [->|]; [exact L|apply Y; lia].
        - right. intros C. specialize (C (k + n) ltac:(lia)). unfold okf in C. lia. }
      assert (all_dec' : forall n (k : nat), {forall r, k <= r < k + n -> okp r} + {~ forall r, k <= r < k + n -> okp r}).
      { intros n k. induction n as [|n IH]; [left; intros; lia|].
        destruct IH as [Y|N]; [|right; intros C; apply N; intros; apply C; lia].
        destruct (le_lt_dec 1 (length (nth (k + n) rc []))) as [L|L].
        - left. intros r Hr. destruct (Nat.eq_dec r (k + n)) as [->|]; [exact L|apply Y; lia].
        - right. intros C. specialize (C (k + n) ltac:(lia)). unfold okp in C. lia. }
      destruct (all_dec (rf / 2) 0) as [A1|N1]; [|right; intros [C _]; apply N1; intros; apply C; lia].
      destruct (all_dec (rf / 2) (rf / 2 + rp)) as [A2|N2]; [|right; intros [C _]; apply N2; intros; apply C; lia].
      destruct (all_dec' rp (rf / 2)) as [A3|N3]; [|right; intros [_ [C _]]; apply N3; intros; apply C; lia].
      destruct (le_lt_dec 4 t), (le_lt_dec rp 0), (le_lt_dec t (length diag));
        try (left; repeat split; [intros r [Hr|Hr]; [apply A1|apply A2]; lia|intros; apply A3; lia|intros; lia]).
      right. intros [_ [_ C]]. lia. }
    destruct D as [D|D].
    - left. split; [exact Hx|]. split; [exact Hw|]. split; [right; exact Hd|]. split; [exact D|]. split.
      + apply (p2_permutation_ref HF _ _ _ _ _ _ _ _ _ _ H Hb); assumption.
      + apply p2_ref_length.
    - right. split; [tauto|]. apply (p2_permutation_panic HF _ _ _ _ _ _ _ _ _ _ H Hb). tauto.
  Qed.

  Theorem p2_permutation_returns_iff dbg t d rf rp (diag : list F) (mi rc : list (list F)) P x :
    p2_new dbg t d rf rp diag mi rc = Ok P ->
    (N.of_nat rf + N.of_nat rp < usize_mod)%N ->
    ((exists y, p2_permutation dbg P x = Ok y) <->
     length x = t /\ p2_width t /\ (rf + rp = 0 \/ sbox_degree d) /\ p2_data_ok t rf rp diag rc) /\
    ((exists y, p2_permutation dbg P x = Ok y) \/ p2_permutation dbg P x = Panic) /\
    (forall y, p2_permutation dbg P x = Ok y -> length y = t).
  Proof.
    intros H Hb. destruct (p2_permutation_exact dbg t d rf rp diag mi rc P x H Hb) as [[A [B [C [D [E L]]]]]|[N E]]; rewrite E.
    - split; [|split].
      + split; [intros _; tauto|intros _; eexists; reflexivity].
      + left; eexists; reflexivity.
      + intros y [= <-]. exact L.
    - split; [|split].
      + split; [intros [y Hy]; discriminate|tauto].
      + right; reflexivity.
      + discriminate.
  Qed.

  (** ** Surplus data *)
  Lemma data_ok_surplus t rf rp (diag diag2 : list F) (rc rc' : list (list F)) :
    (forall r, exists e, nth r rc' [] = nth r rc [] ++ e) ->
    p2_data_ok t rf rp diag rc -> p2_data_ok t rf rp (diag ++ diag2) rc'.
  Proof.
    intros H [A [B C]]. repeat split; intros.
    - destruct (H r) as [e ->]. rewrite app_length. specialize (A r H0). lia.
    - destruct (H r) as [e ->]. rewrite app_length. specialize (B r H0). lia.
    - rewrite app_length. specialize (C H0 H1). lia.
  Qed.

  Theorem p2_surplus dbg t d rf rp (diag diag2 : list F) (mi mi' rc rc' : list (list F)) P P' x :
    p2_new dbg t d rf rp diag mi rc = Ok P -> p2_new dbg t d rf rp (diag ++ diag2) mi' rc' = Ok P' ->
    (N.of_nat rf + N.of_nat rp < usize_mod)%N ->
    p2_data_ok t rf rp diag rc ->
    (forall r, exists e, nth r rc' [] = nth r rc [] ++ e) ->
    p2_permutation dbg P x = p2_permutation dbg P' x.
  Proof.
    intros H H' Hb D Hrc.
    destruct (Nat.eq_dec rp 0) as [Hz|Hz].
    - (* without partial rounds the diagonal is not read *)
      subst rp.
      destruct (p2_permutation_exact dbg t d rf 0 diag mi rc P x H Hb) as [[A [B [C [_ [E _]]]]]|[N E]];
      destruct (p2_permutation_exact dbg t d rf 0 _ mi' rc' P' x H' Hb) as [[A' [B' [C' [_ [E' _]]]]]|[N' E']];
      rewrite E, E'; try reflexivity.
      + f_equal. unfold p2_ref. cbn [seq fold_left].
        rewrite (fold_left_ext_in (fun s r => p2_ref_full t d (nth r rc []) s)
                                  (fun s r => p2_ref_full t d (nth r rc' []) s) (seq 0 (rf / 2))).
        2:{ intros s r Hr. apply in_seq in Hr. apply p2_ref_full_agree. intros i Hi.
            destruct (Hrc r) as [e ->]. symmetry. apply app_nth1. destruct D as [D _].
            specialize (D r ltac:(lia)). lia. }
        apply fold_left_ext_in. intros s r Hr. apply in_seq in Hr. apply p2_ref_full_agree. intros i Hi.
        destruct (Hrc r) as [e ->]. symmetry. apply app_nth1. destruct D as [D _]. specialize (D r ltac:(lia)). lia.
      + exfalso. apply N'. repeat split; try assumption; apply (data_ok_surplus _ _ _ _ diag2 _ _ Hrc D).
      + exfalso. apply N. tauto.
    - apply (p2_permutation_agree HF dbg t d rf rp diag (diag ++ diag2) mi mi' rc rc' P P' x H H' Hb D).
      + apply data_ok_surplus with (rc := rc); assumption.
      + destruct D as [D1 [D2 D3]]. repeat split.
        * intros r i Hr Hi. destruct (Hrc r) as [e ->]. symmetry. apply app_nth1. specialize (D1 r Hr). lia.
        * intros r Hr. destruct (Hrc r) as [e ->]. symmetry. apply app_nth1. specialize (D2 r Hr). lia.
        * intros H4 i Hi. symmetry. apply app_nth1. specialize (D3 H4 ltac:(lia)). lia.
  Qed.

  (** ** Overflow of rounds_f + rounds_p *)
  Theorem p2_new_overflow_debug t d rf rp (diag : list F) (mi rc : list (list F)) :
    (usize_mod <= N.of_nat rf + N.of_nat rp)%N -> p2_new true t d rf rp diag mi rc = Panic.
  Proof.
    intros H. unfold p2_new, uadd. destruct (_ || _); [|reflexivity]. destruct (_ =? _); [|reflexivity].
    cbn [assert bind]. apply N.ltb_ge in H. rewrite H. reflexivity.
  Qed.

  Theorem p2_overflow_release t d rf rp (diag : list F) (mi rc : list (list F)) x :
    (N.of_nat rf < usize_mod)%N -> (N.of_nat rp < usize_mod)%N ->
    (usize_mod <= N.of_nat (rf / 2) + N.of_nat rp)%N ->
    rf mod 2 = 0 -> p2_width t -> sbox_degree d -> length x = t ->
    (forall r, r < rf -> t <= length (nth r rc [])) ->
    let k := N.to_nat (N.of_nat (rf / 2) + N.of_nat rp - usize_mod) in
    let full s r := p2_ref_full t d (nth r rc []) s in
    k < rf / 2 /\
    exists P, p2_new false t d rf rp diag mi rc = Ok P /\
      p2_permutation false P x =
        Ok (fold_left full (seq k (rf / 2))
             (fold_left full (seq 0 (rf / 2)) (mat_apply t t (ext_matrix t) x))).
  Proof.
    intros H1 H2 H3 Hev Hw Hd Hx Hrc k full.
    pose proof (even_half rf Hev) as Hh.
    assert (Hk : N.of_nat k = (N.of_nat (rf / 2) + N.of_nat rp - usize_mod)%N) by (unfold k; rewrite N2Nat.id; reflexivity).
    assert (Hlt : k < rf / 2) by lia.
    split; [exact Hlt|].
    assert (Hs : uadd false rf rp = Ok (k + rf / 2)).
    { unfold uadd. destruct (N.ltb_spec (N.of_nat rf + N.of_nat rp) usize_mod); [lia|]. f_equal.
      rewrite (N.mod_eq _ usize_mod) by (vm_compute; discriminate).
      replace ((N.of_nat rf + N.of_nat rp) / usize_mod)%N with 1%N.
      - lia.
      - apply (N.div_unique _ _ _ (N.of_nat rf + N.of_nat rp - usize_mod)%N); lia. }
    assert (He : uadd false (rf / 2) rp = Ok k).
    { unfold uadd. destruct (N.ltb_spec (N.of_nat (rf / 2) + N.of_nat rp) usize_mod); [lia|]. f_equal.
      rewrite (N.mod_eq _ usize_mod) by (vm_compute; discriminate).
      replace ((N.of_nat (rf / 2) + N.of_nat rp) / usize_mod)%N with 1%N.
      - lia.
      - apply (N.div_unique _ _ _ (N.of_nat (rf / 2) + N.of_nat rp - usize_mod)%N); lia. }
    set (P := {| p2_t := t; p2_d := d; p2_rounds_f_beginning := rf / 2; p2_rounds_p := rp;
                 p2_rounds_f_end := rf / 2; p2_rounds := k + rf / 2; p2_diag := diag;
                 p2_mat_internal := mi; p2_rc := rc |}).
    exists P. split.
    - unfold p2_new. replace ((d =? 3) || (d =? 5) || (d =? 7) || (d =? 11)) with true.
      + rewrite Hev. cbn [Nat.eqb assert bind]. rewrite Hs. reflexivity.
      + destruct Hd as [<-|[<-|[<-|[]]]]; reflexivity.
    - unfold p2_permutation. cbn [p2_t p2_rounds_f_beginning p2_rounds_p p2_rounds P].
      rewrite Hx, Nat.eqb_refl. cbn [assert bind]. fold P.
      rewrite (p2_matmul_external_ok HF P x Hw Hx). cbn [bind p2_t P]. fold P.
      set (s0 := mat_apply t t (ext_matrix t) x).
      assert (L0 : length s0 = t) by apply mat_apply_length.
      destruct (for_range_fold full (fun s => length s = t) 0 (rf / 2) (p2_full_round P) s0 L0) as [E1 L1].
      { intros r s Hr Hs'. split; [|apply p2_ref_full_length].
        apply (p2_full_round_ok HF P); try assumption. apply Hrc. lia. }
      rewrite E1. cbn [bind]. rewrite Nat.sub_0_r in *. rewrite He. cbn [bind].
      rewrite for_range_empty by lia. cbn [bind].
      destruct (for_range_fold full (fun s => length s = t) k (k + rf / 2) (p2_full_round P) _ L1) as [E2 L2].
      { intros r s Hr Hs'. split; [|apply p2_ref_full_length].
        apply (p2_full_round_ok HF P); try assumption. apply Hrc. lia. }
      rewrite E2. replace (k + rf / 2 - k) with (rf / 2) by lia. reflexivity.
  Qed.

  (** ** Internal matrix for t = 2, 3 against the supplied diagonal *)
  Lemma int_matrix_small t diag : t = 2 \/ t = 3 -> length diag = t ->
    (mat_eq t (int_matrix t diag) (fun i j => if i =? j then fadd (nth i diag f0) f1 else f1) <->
     diag = match t with 2 => [f1; fadd f1 f1] | _ => [f1; f1; fadd f1 f1] end).
  Proof.
    pose proof (ff_ring _ HF) as R.
    intros [-> | ->] Hl.
    - destruct diag as [|a [|b [|]]]; try discriminate. split.
      + intros H. pose proof (H 0 0 ltac:(lia) ltac:(lia)) as A. pose proof (H 1 1 ltac:(lia) ltac:(lia)) as B.
        unfold int_matrix in A, B. cbn in A, B. unfold fnat in A, B. cbn [sumn] in A, B.
        repeat (apply (f_equal2 cons)).
        * apply (fadd_cancel_r HF f1). rewrite <- A, (Radd_0_l R). reflexivity.
        * apply (fadd_cancel_r HF f1). rewrite <- B, (Radd_0_l R). reflexivity.
        * reflexivity.
      + intros [= -> ->] i j Hi Hj. unfold int_matrix, fnat. cbn [Nat.ltb Nat.leb].
        destruct i as [|[|i]], j as [|[|j]]; try lia; cbn; rewrite ?(Radd_0_l R); reflexivity.
    - destruct diag as [|a [|b [|c [|]]]]; try discriminate. split.
      + intros H. pose proof (H 0 0 ltac:(lia) ltac:(lia)) as A. pose proof (H 1 1 ltac:(lia) ltac:(lia)) as B.
        pose proof (H 2 2 ltac:(lia) ltac:(lia)) as C.
        unfold int_matrix in A, B, C. cbn in A, B, C. unfold fnat in A, B, C. cbn [sumn] in A, B, C.
        repeat (apply (f_equal2 cons)).
        * apply (fadd_cancel_r HF f1). rewrite <- A, (Radd_0_l R). reflexivity.
        * apply (fadd_cancel_r HF f1). rewrite <- B, (Radd_0_l R). reflexivity.
        * apply (fadd_cancel_r HF f1). rewrite <- C, (Radd_0_l R). reflexivity.
        * reflexivity.
      + intros [= -> -> ->] i j Hi Hj. unfold int_matrix, fnat. cbn [Nat.ltb Nat.leb].
        destruct i as [|[|[|i]]], j as [|[|[|j]]]; try lia; cbn; rewrite ?(Radd_0_l R); reflexivity.
  Qed.

  (** ** Constructor *)
  Theorem p2_new_iff dbg t d rf rp (diag : list F) (mi rc : list (list F)) :
    (N.of_nat rf + N.of_nat rp < usize_mod)%N ->
    ((exists P, p2_new dbg t d rf rp diag mi rc = Ok P) <-> (sbox_degree d \/ d = 11) /\ rf mod 2 = 0).
  Proof.
    intros Hb. split.
    - intros [P H]. destruct (p2_new_ok _ _ _ _ _ _ _ _ _ H Hb) as [A [B _]]. auto.
    - intros [A B]. eexists. apply p2_new_total; assumption.
  Qed.
  Theorem p2_new_any dbg t d rf rp (diag : list F) (mi rc : list (list F)) :
    (sbox_degree d \/ d = 11) -> rf mod 2 = 0 -> (N.of_nat rf + N.of_nat rp < usize_mod)%N ->
    exists P, p2_new dbg t d rf rp diag mi rc = Ok P.
  Proof. intros. eexists. apply p2_new_total; assumption. Qed.

  Theorem p2_d11 dbg t rf rp (diag : list F) (mi rc : list (list F)) :
    rf mod 2 = 0 -> (N.of_nat rf + N.of_nat rp < usize_mod)%N -> 0 < rf + rp ->
    exists P, p2_new dbg t 11 rf rp diag mi rc = Ok P /\ forall x, p2_permutation dbg P x = Panic.
  Proof.
    intros Hev Hb Hpos. destruct (p2_new_any dbg t 11 rf rp diag mi rc) as [P H]; auto.
    exists P. split; [exact H|]. intros x. apply (p2_permutation_panic HF _ _ _ _ _ _ _ _ _ _ H Hb).
    intros [_ [_ [[C|C] _]]]; [lia|]. unfold sbox_degree in C. cbn in C. lia.
  Qed.

  Theorem p2_short_panics dbg t d rf rp (diag : list F) (mi rc : list (list F)) P x :
    p2_new dbg t d rf rp diag mi rc = Ok P ->
    (N.of_nat rf + N.of_nat rp < usize_mod)%N ->
    ~ p2_data_ok t rf rp diag rc -> p2_permutation dbg P x = Panic.
  Proof. intros H Hb N. apply (p2_permutation_panic HF _ _ _ _ _ _ _ _ _ _ H Hb). tauto. Qed.

  Theorem p2_input_24 dbg (diag : list F) (mi rc : list (list F)) x :
    (forall row, In row rc -> length row = 3) ->
    exists P, p2_new dbg 24 5 8 56 diag mi rc = Ok P /\ p2_permutation dbg P x = Panic.
  Proof.
    intros Hr. destruct (p2_new_any dbg 24 5 8 56 diag mi rc) as [P H].
    { left. cbn. auto. } { reflexivity. } { vm_compute. reflexivity. }
    exists P. split; [exact H|]. apply (p2_short_panics _ _ _ _ _ _ _ _ _ _ H); [vm_compute; reflexivity|].
    intros [A _]. specialize (A 0 ltac:(left; cbn; lia)).
    destruct rc as [|row rc]; cbn in A; [lia|]. rewrite (Hr row (or_introl eq_refl)) in A. lia.
  Qed.

  Theorem p2_get_t_new dbg t d rf rp (diag : list F) (mi rc : list (list F)) P :
    p2_new dbg t d rf rp diag mi rc = Ok P -> p2_get_t P = t.
  Proof.
    unfold p2_new. intros H. inv_ok H. inv_ok H. inv_ok H. inversion H. reflexivity.
  Qed.
End Extra.
