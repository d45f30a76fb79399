(** * ProofPoseidon2Bij: internal matrix, bijectivity of the permutation *)
From Verif Require Import Base Field Spec FieldPow Poly LinAlg LoopLemmas Bij ModelUtils ModelPoseidon2
  SpecPoseidon2 ProofPoseidon2 ProofPoseidon2Lin.

Section Int.
  Context {F : Type} {Fo : FOps F} (HF : is_field Fo).
  Add Ring FringInt : (ff_ring _ HF).
  Ltac fn := unfold fnat; cbn [sumn].

  Lemma int_row t diag (x : nat -> F) i : 4 <= t -> i < t ->
    sumn t (fun j => fmul (int_matrix t diag i j) (x j)) = fadd (fmul (nth i diag f0) (x i)) (sumn t x).
  Proof.
    intros Ht Hi. unfold int_matrix. assert (E1 : t <? 4 = false) by (apply Nat.ltb_ge; lia). rewrite E1.
    etransitivity; [apply (sumn_ext t _ (fun j => fadd (fmul (if i =? j then f1 else f0)
                     (fmul (nth i diag f0) (x j))) (x j)))|].
    - intros j Hj. destruct (Nat.eqb_spec i j) as [->|]; ring.
    - rewrite (sumn_add HF), (sumn_delta HF t i (fun j => fmul (nth i diag f0) (x j))) by exact Hi. reflexivity.
  Qed.

  (** ones plus a diagonal of non-zero entries: invertible iff 1 + sum of inverses is not zero *)
  Lemma int_nonsingular_iff t diag : 4 <= t -> (forall i, i < t -> nth i diag f0 <> f0) ->
    (nonsingular t (int_matrix t diag) <-> fadd f1 (sumn t (fun i => finv (nth i diag f0))) <> f0).
  Proof.
    intros Ht Hd. set (w := fun i => finv (nth i diag f0)).
    assert (Hw : forall i, i < t -> fmul (w i) (nth i diag f0) = f1) by (intros; apply (ff_inv _ HF); auto).
    split.
    - intros HN E. apply (ff_one_neq_zero _ HF).
      assert (Hw0 : w 0 = f0).
      { apply (HN w); [|lia]. intros i Hi. rewrite int_row by lia. etransitivity; [|exact E].
        rewrite <- (Hw i Hi). unfold w. ring. }
      rewrite <- (Hw 0 ltac:(lia)), Hw0. ring.
    - intros Hn x H.
      assert (Hx : forall i, i < t -> x i = fopp (fmul (w i) (sumn t x))).
      { intros i Hi. pose proof (H i Hi) as E. rewrite int_row in E by lia.
        assert (E2 : fmul (w i) (fadd (fmul (nth i diag f0) (x i)) (sumn t x)) = f0) by (rewrite E; ring).
        apply (fsub_eq_0 HF). etransitivity; [|exact E2].
        transitivity (fadd (fmul f1 (x i)) (fmul (w i) (sumn t x))); [ring|]. rewrite <- (Hw i Hi). ring. }
      assert (HS : sumn t x = f0).
      { assert (Hz : fmul (fadd f1 (sumn t w)) (sumn t x) = f0).
        { transitivity (fadd (sumn t x) (sumn t (fun i => fmul (w i) (sumn t x)))).
          - rewrite (sumn_mul_r HF). ring.
          - rewrite <- (sumn_add HF). apply (sumn_zero HF). intros i Hi. rewrite (Hx i Hi) at 1. ring. }
        destruct (fmul_integral HF _ _ Hz); [contradiction|assumption]. }
      intros j Hj. rewrite (Hx j Hj), HS. ring.
  Qed.

  Lemma int2_nonsingular diag : fnat 5 <> (f0 : F) -> nonsingular 2 (int_matrix 2 diag).
  Proof.
    intros H3 x H. pose proof (H 0 ltac:(lia)) as E0. pose proof (H 1 ltac:(lia)) as E1. clear H.
    unfold int_matrix in *. cbn [sumn Nat.ltb Nat.leb Nat.eqb Nat.sub] in *.
    set (r0 := fadd _ _) in E0. set (r1 := fadd _ _) in E1.
    assert (X : forall a b e, fmul (fnat 5) e = fadd (fmul a r0) (fmul b r1) -> e = f0).
    { intros a b e He. rewrite E0, E1 in He.
      assert (Hz : fmul _ e = f0) by (etransitivity; [exact He|ring]).
      destruct (fmul_integral HF _ _ Hz); [contradiction|assumption]. }
    intros j Hj. destruct j as [|[|]]; [| |lia].
    - apply (X (fnat 3) (fopp f1)). unfold r0, r1. fn. ring.
    - apply (X (fopp f1) (fnat 2)). unfold r0, r1. fn. ring.
  Qed.

  Lemma int3_nonsingular diag : fnat 7 <> (f0 : F) -> nonsingular 3 (int_matrix 3 diag).
  Proof.
    intros H7 x H. pose proof (H 0 ltac:(lia)) as E0. pose proof (H 1 ltac:(lia)) as E1.
    pose proof (H 2 ltac:(lia)) as E2. clear H.
    unfold int_matrix in *. cbn [sumn Nat.ltb Nat.leb Nat.eqb Nat.sub] in *.
    set (r0 := fadd _ _) in E0. set (r1 := fadd _ _) in E1. set (r2 := fadd _ _) in E2.
    assert (X : forall a b c e, fmul (fnat 7) e = fadd (fadd (fmul a r0) (fmul b r1)) (fmul c r2) -> e = f0).
    { intros a b c e He. rewrite E0, E1, E2 in He.
      assert (Hz : fmul _ e = f0) by (etransitivity; [exact He|ring]).
      destruct (fmul_integral HF _ _ Hz); [contradiction|assumption]. }
    intros j Hj. destruct j as [|[|[|]]]; [| | |lia].
    - apply (X (fnat 5) (fopp (fnat 2)) (fopp f1)). unfold r0, r1, r2. fn. ring.
    - apply (X (fopp (fnat 2)) (fnat 5) (fopp f1)). unfold r0, r1, r2. fn. ring.
    - apply (X (fopp f1) (fopp f1) (fnat 3)). unfold r0, r1, r2. fn. ring.
  Qed.
End Int.

Section Bijective.
  Context {F : Type} {Fo : FOps F} {p : Z} (HP : is_prime_field Fo p).
  Let HF : is_field Fo := prime_field_is_field HP.
  Add Ring FringB : (ff_ring _ HF).

  Lemma p2_ref_full_lbij t d c : nonsingular t (ext_matrix t) -> d <> 0 ->
    Z.gcd (Z.of_nat d) (p - 1) = 1%Z -> lbij t (@p2_ref_full F Fo t d c).
  Proof.
    intros HE Hd Hg. destruct (pow_inverse HP d Hd Hg) as [r Hr]. unfold p2_ref_full.
    apply (lbij_comp t (mat_apply t t (ext_matrix t))
      (fun x => map (fun i => fpow (fadd (nth i x f0) (nth i c f0)) d) (seq 0 t))); [apply (lbij_mat HF); exact HE|].
    apply (lbij_pointwise t f0 (fun i a => fpow (fadd a (nth i c f0)) d) (fun i a => fsub (r a) (nth i c f0))).
    intros i a Hi. split.
    - rewrite (proj1 (Hr _)). ring.
    - replace (fadd (fsub (r a) (nth i c f0)) (nth i c f0)) with (r a) by ring. apply Hr.
  Qed.

  Lemma p2_ref_partial_lbij t d diag c : nonsingular t (int_matrix t diag) -> d <> 0 ->
    Z.gcd (Z.of_nat d) (p - 1) = 1%Z -> lbij t (@p2_ref_partial F Fo t d diag c).
  Proof.
    intros HI Hd Hg. destruct (pow_inverse HP d Hd Hg) as [r Hr]. unfold p2_ref_partial.
    set (k := nth 0 c f0).
    apply (lbij_ext t (fun x => mat_apply t t (int_matrix t diag)
      (map (fun i => (if i =? 0 then fun a => fpow (fadd a k) d else fun a => a) (nth i x f0)) (seq 0 t)))).
    - apply (lbij_comp t (mat_apply t t (int_matrix t diag))
       (fun x => map (fun i => (if i =? 0 then fun a => fpow (fadd a k) d else fun a => a) (nth i x f0)) (seq 0 t)));
        [apply (lbij_mat HF); exact HI|].
      apply (lbij_pointwise t f0 (fun i => if i =? 0 then fun a => fpow (fadd a k) d else fun a => a)
                                 (fun i => if i =? 0 then fun a => fsub (r a) k else fun a => a)).
      intros i a Hi. destruct (i =? 0); [|auto]. split.
      + rewrite (proj1 (Hr _)). ring.
      + replace (fadd (fsub (r a) k) k) with (r a) by ring. apply Hr.
    - intros x Hx. f_equal. apply map_seq_ext. intros i Hi. destruct (Nat.eqb_spec i 0) as [->|]; reflexivity.
  Qed.

  Lemma p2_ref_lbij t d rf rp diag rc :
    nonsingular t (ext_matrix t) -> (rp = 0 \/ nonsingular t (int_matrix t diag)) -> d <> 0 ->
    Z.gcd (Z.of_nat d) (p - 1) = 1%Z -> lbij t (@p2_ref F Fo t d rf rp diag rc).
  Proof.
    intros HE HI Hd Hg. unfold p2_ref.
    apply (lbij_comp t
      (fun s => fold_left (fun s r => p2_ref_full t d (nth r rc []) s) (seq (rf / 2 + rp) (rf / 2)) s)
      (fun x => fold_left (fun s r => p2_ref_partial t d diag (nth r rc []) s) (seq (rf / 2) rp)
        (fold_left (fun s r => p2_ref_full t d (nth r rc []) s) (seq 0 (rf / 2)) (mat_apply t t (ext_matrix t) x)))).
    - apply lbij_fold. intros b _. apply p2_ref_full_lbij; assumption.
    - apply (lbij_comp t (fun s => fold_left (fun s r => p2_ref_partial t d diag (nth r rc []) s) (seq (rf / 2) rp) s)
        (fun x => (fold_left (fun s r => p2_ref_full t d (nth r rc []) s) (seq 0 (rf / 2)) (mat_apply t t (ext_matrix t) x)))).
      + apply lbij_fold. intros b Hb. apply in_seq in Hb. destruct HI as [->|HI]; [lia|].
        apply p2_ref_partial_lbij; assumption.
      + apply (lbij_comp t (fun s => fold_left (fun s r => p2_ref_full t d (nth r rc []) s) (seq 0 (rf / 2)) s)).
        * apply lbij_fold. intros b _. apply p2_ref_full_lbij; assumption.
        * apply (lbij_mat HF). exact HE.
  Qed.

  Theorem p2_permutation_bijective dbg t d rf rp diag mi rc P :
    p2_new dbg t d rf rp diag mi rc = Ok P ->
    (N.of_nat rf + N.of_nat rp < usize_mod)%N ->
    p2_width t -> sbox_degree d -> p2_data_ok t rf rp diag rc ->
    Z.gcd (Z.of_nat d) (p - 1) = 1%Z -> ~ In p (ext_bad_primes t) ->
    (rp = 0 \/ invertible t (int_matrix t diag)) ->
    bijective_on t (p2_permutation dbg P).
  Proof.
    intros Hnew Hb Hw Hd Hdata Hg Hbad Hint.
    apply (lbij_bijective t (p2_ref t d rf rp diag rc)).
    - apply p2_ref_lbij; [apply (ext_nonsingular HP); assumption| | |exact Hg].
      + destruct Hint as [H|H]; [left; exact H|right; apply (invertible_nonsingular HF); exact H].
      + unfold sbox_degree in Hd. simpl in Hd. intros ->. intuition discriminate.
    - intros x Hx. apply (p2_permutation_ref HF dbg t d rf rp diag mi rc P x); assumption.
  Qed.

  (** ** Converse: each condition is necessary *)
  Definition full_sb t d (c : list F) (x : list F) : list F :=
    map (fun i => fpow (fadd (nth i x f0) (nth i c f0)) d) (seq 0 t).
  Definition part_sb t d (c : list F) (x : list F) : list F :=
    map (fun i => if i =? 0 then fpow (fadd (nth 0 x f0) (nth 0 c f0)) d else nth i x f0) (seq 0 t).

  Definition p2_layers t d rf rp diag (rc : list (list F)) : list (list F -> list F) :=
    [mat_apply t t (ext_matrix t)] ++
    flat_map (fun r => [full_sb t d (nth r rc []); mat_apply t t (ext_matrix t)]) (seq 0 (rf / 2)) ++
    flat_map (fun r => [part_sb t d (nth r rc []); mat_apply t t (int_matrix t diag)]) (seq (rf / 2) rp) ++
    flat_map (fun r => [full_sb t d (nth r rc []); mat_apply t t (ext_matrix t)]) (seq (rf / 2 + rp) (rf / 2)).

  Lemma p2_layers_ref t d rf rp diag rc x :
    run_layers (p2_layers t d rf rp diag rc) x = p2_ref t d rf rp diag rc x.
  Proof. unfold p2_layers. rewrite !run_layers_app, !run_layers_flat. reflexivity. Qed.

  Lemma const_vec t i (a : F) : i < t -> nth i (repeat a t) f0 = a.
  Proof. intros Hi. apply nth_repeat_lt. exact Hi. Qed.

  Lemma full_sb_inj t d c : 1 <= t -> d <> 0 -> linj t (full_sb t d c) -> Z.gcd (Z.of_nat d) (p - 1) = 1%Z.
  Proof.
    intros Ht Hd Hi. apply (pow_injective_iff HP d Hd). intros x y E.
    set (v := fun a => map (fun i => fsub a (nth i c f0)) (seq 0 t)).
    assert (Ev : v x = v y).
    { apply Hi; try (unfold v; rewrite map_length, seq_length; reflexivity).
      unfold full_sb. apply map_seq_ext. intros i Hi'. unfold v. rewrite !nth_map_seq by exact Hi'.
      replace (fadd (fsub x (nth i c f0)) (nth i c f0)) with x by ring.
      replace (fadd (fsub y (nth i c f0)) (nth i c f0)) with y by ring. exact E. }
    apply (f_equal (fun l => fadd (nth 0 l f0) (nth 0 c f0))) in Ev. unfold v in Ev.
    rewrite !nth_map_seq in Ev by lia.
    transitivity (fadd (fsub x (nth 0 c f0)) (nth 0 c f0)); [ring|]. rewrite Ev. ring.
  Qed.

  Lemma part_sb_inj t d c : 1 <= t -> d <> 0 -> linj t (part_sb t d c) -> Z.gcd (Z.of_nat d) (p - 1) = 1%Z.
  Proof.
    intros Ht Hd Hi. apply (pow_injective_iff HP d Hd). intros x y E.
    set (v := fun a => map (fun i => fsub a (nth 0 c f0)) (seq 0 t)).
    set (w := fun a => map (fun i => if i =? 0 then fsub a (nth 0 c f0) else f0) (seq 0 t)).
    assert (Ev : w x = w y).
    { apply Hi; try (unfold w; rewrite map_length, seq_length; reflexivity).
      unfold part_sb. apply map_seq_ext. intros i Hi'. unfold w. rewrite !nth_map_seq by lia. cbn [Nat.eqb].
      replace (fadd (fsub x (nth 0 c f0)) (nth 0 c f0)) with x by ring.
      replace (fadd (fsub y (nth 0 c f0)) (nth 0 c f0)) with y by ring.
      destruct (i =? 0); [exact E|reflexivity]. }
    apply (f_equal (fun l => fadd (nth 0 l f0) (nth 0 c f0))) in Ev. unfold w in Ev.
    rewrite !nth_map_seq in Ev by lia. cbn [Nat.eqb] in Ev.
    transitivity (fadd (fsub x (nth 0 c f0)) (nth 0 c f0)); [ring|]. rewrite Ev. ring.
  Qed.

  Lemma full_sb_lbij t d c : d <> 0 -> Z.gcd (Z.of_nat d) (p - 1) = 1%Z -> lbij t (full_sb t d c).
  Proof.
    intros Hd Hg. destruct (pow_inverse HP d Hd Hg) as [r Hr].
    apply (lbij_pointwise t f0 (fun i a => fpow (fadd a (nth i c f0)) d) (fun i a => fsub (r a) (nth i c f0))).
    intros i a Hi. split.
    - rewrite (proj1 (Hr _)). ring.
    - replace (fadd (fsub (r a) (nth i c f0)) (nth i c f0)) with (r a) by ring. apply Hr.
  Qed.

  Lemma part_sb_lbij t d c : d <> 0 -> Z.gcd (Z.of_nat d) (p - 1) = 1%Z -> lbij t (part_sb t d c).
  Proof.
    intros Hd Hg. destruct (pow_inverse HP d Hd Hg) as [r Hr]. set (k := nth 0 c f0).
    eapply lbij_ext; [apply (lbij_pointwise t f0
          (fun i => if i =? 0 then fun a => fpow (fadd a k) d else fun a => a)
          (fun i => if i =? 0 then fun a => fsub (r a) k else fun a => a))|].
    - intros i a Hi. destruct (i =? 0); [|auto]. split.
      + rewrite (proj1 (Hr _)). ring.
      + replace (fadd (fsub (r a) k) k) with (r a) by ring. apply Hr.
    - intros x Hx. apply map_seq_ext. intros i Hi. destruct (Nat.eqb_spec i 0) as [->|]; reflexivity.
  Qed.

  Lemma p2_ref_inj t d rf rp diag rc : 1 <= t -> d <> 0 ->
    linj t (@p2_ref F Fo t d rf rp diag rc) ->
    (rf / 2 + rp = 0 \/ Z.gcd (Z.of_nat d) (p - 1) = 1%Z) /\ nonsingular t (ext_matrix t) /\
    (rp = 0 \/ nonsingular t (int_matrix t diag)).
  Proof.
    intros Ht Hd Hi.
    assert (Hall : Forall (lbij t) (p2_layers t d rf rp diag rc)).
    { apply peel.
      - apply Forall_forall. intros f Hf. unfold p2_layers in Hf.
        assert (Hm : forall A, linj t (mat_apply t t A) -> lbij t (@mat_apply F Fo t t A)).
        { intros A HA. apply (lbij_mat HF). apply (linj_mat HF). exact HA. }
        repeat (apply in_app_or in Hf; destruct Hf as [Hf|Hf]);
          try (apply in_flat_map in Hf; destruct Hf as [r [_ Hf]]);
          repeat (destruct Hf as [<-|Hf]); try contradiction; try (apply Hm).
        + intros H. apply full_sb_lbij; [exact Hd|]. apply (full_sb_inj t d _ Ht Hd H).
        + intros H. apply part_sb_lbij; [exact Hd|]. apply (part_sb_inj t d _ Ht Hd H).
        + intros H. apply full_sb_lbij; [exact Hd|]. apply (full_sb_inj t d _ Ht Hd H).
      - intros x y Hx Hy E. rewrite !p2_layers_ref in E. apply Hi; assumption. }
    rewrite Forall_forall in Hall. unfold p2_layers in Hall. repeat split.
    - destruct (Nat.eq_dec (rf / 2 + rp) 0) as [E|N]; [left; exact E|right].
      destruct (Nat.eq_dec (rf / 2) 0) as [E0|N0].
      + apply (part_sb_inj t d (nth (rf / 2) rc []) Ht Hd). apply lbij_inj. apply Hall.
        apply in_or_app; right. apply in_or_app; right. apply in_or_app; left.
        apply in_flat_map. exists (rf / 2). split; [apply in_seq; lia|left; reflexivity].
      + apply (full_sb_inj t d (nth 0 rc []) Ht Hd). apply lbij_inj. apply Hall.
        apply in_or_app; right. apply in_or_app; left.
        apply in_flat_map. exists 0. split; [apply in_seq; lia|left; reflexivity].
    - apply (linj_mat HF). apply lbij_inj. apply Hall. left. reflexivity.
    - destruct (Nat.eq_dec rp 0) as [E|N]; [left; exact E|right].
      apply (linj_mat HF). apply lbij_inj. apply Hall.
      apply in_or_app; right. apply in_or_app; right. apply in_or_app; left.
      apply in_flat_map. exists (rf / 2). split; [apply in_seq; lia|right; left; reflexivity].
  Qed.

  (** exact condition *)
  Theorem p2_permutation_bijective_iff dbg t d rf rp diag mi rc P :
    p2_new dbg t d rf rp diag mi rc = Ok P ->
    (N.of_nat rf + N.of_nat rp < usize_mod)%N ->
    p2_width t -> sbox_degree d -> p2_data_ok t rf rp diag rc ->
    (bijective_on t (p2_permutation dbg P) <->
     (rf + rp = 0 \/ Z.gcd (Z.of_nat d) (p - 1) = 1%Z) /\ ~ In p (ext_bad_primes t) /\
     (rp = 0 \/ invertible t (int_matrix t diag))).
  Proof.
    intros Hnew Hb Hw Hd Hdata.
    assert (Hd0 : d <> 0) by (unfold sbox_degree in Hd; simpl in Hd; intros ->; intuition discriminate).
    destruct (p2_new_ok _ _ _ _ _ _ _ _ _ Hnew Hb) as [_ [Hev _]]. pose proof (even_half rf Hev) as Hh.
    assert (Href : forall x, length x = t -> p2_permutation dbg P x = Ok (p2_ref t d rf rp diag rc x)).
    { intros x Hx. apply (p2_permutation_ref HF dbg t d rf rp diag mi rc P x); assumption. }
    split.
    - intros HB. pose proof (bijective_inj t _ _ HB Href) as Hi.
      pose proof (p2_width_pos t Hw) as Ht.
      destruct (p2_ref_inj t d rf rp diag rc ltac:(lia) Hd0 Hi) as [A [B C]]. repeat split.
      + destruct A as [A|A]; [left; lia|right; exact A].
      + apply (ext_invertible_iff HP t Hw). apply (nonsingular_invertible HF). exact B.
      + destruct C as [C|C]; [left; exact C|right; apply (nonsingular_invertible HF); exact C].
    - intros [[A|A] [B C]].
      + apply (lbij_bijective t (p2_ref t d rf rp diag rc)); [|exact Href].
        assert (rf = 0 /\ rp = 0) as [-> ->] by lia. unfold p2_ref. cbn [Nat.div fold_left seq].
        change (fst (Nat.divmod 0 1 0 1)) with 0. cbn [seq fold_left].
        apply (lbij_mat HF). apply (ext_nonsingular HP); assumption.
      + eapply p2_permutation_bijective; eassumption.
  Qed.
End Bijective.

Lemma ext_bad_primes_small p t : In p (ext_bad_primes t) -> (p <= 7)%Z.
Proof.
  intros H. do 25 (destruct t as [|t]; [cbn in H; lia|]). cbn in H. destruct H.
Qed.
