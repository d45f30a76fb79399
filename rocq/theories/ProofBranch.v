(** * ProofBranch: branch number of the block matrices circ(2 M4, M4, ..., M4) *)
From Verif Require Import Base Field Spec FieldPow LinAlg LoopLemmas Elim MDS SpecMDS SpecPoseidon2 SpecBranch ProofPoseidon2 ProofPoseidon2Lin ProofPoseidon2MDS.

(** ** Sums of natural numbers over index lists *)
Lemma lsumn_filter (g : nat -> bool) (f : nat -> nat) l :
  list_sum (map f l) = list_sum (map f (filter g l)) + list_sum (map f (filter (fun k => negb (g k)) l)).
Proof.
  induction l as [|k l IH]; [reflexivity|]. cbn [map filter list_sum fold_right].
  unfold list_sum in *. cbn [fold_right]. rewrite IH.
  destruct (g k); cbn [negb map fold_right]; lia.
Qed.
Lemma lsumn_le (f g : nat -> nat) l : (forall k, In k l -> f k <= g k) -> list_sum (map f l) <= list_sum (map g l).
Proof.
  unfold list_sum. induction l as [|k l IH]; intros H; [reflexivity|]. cbn [map fold_right].
  pose proof (H k (or_introl eq_refl)). specialize (IH (fun i Hi => H i (or_intror Hi))). lia.
Qed.
Lemma lsumn_ge (f : nat -> nat) m l : (forall k, In k l -> m <= f k) -> length l * m <= list_sum (map f l).
Proof.
  unfold list_sum. induction l as [|k l IH]; intros H; [reflexivity|]. cbn [map fold_right length].
  pose proof (H k (or_introl eq_refl)). specialize (IH (fun i Hi => H i (or_intror Hi))). lia.
Qed.
Lemma lsumn_plus (f : nat -> nat) m l : list_sum (map (fun k => f k + m) l) = list_sum (map f l) + length l * m.
Proof. unfold list_sum. induction l as [|k l IH]; [reflexivity|]. cbn [map fold_right length]. rewrite IH. lia. Qed.
Lemma lsumn_split (f : nat -> nat) l1 k l2 : list_sum (map f (l1 ++ k :: l2)) = f k + list_sum (map f (l1 ++ l2)).
Proof. rewrite !map_app, !list_sum_app. cbn [map]. unfold list_sum at 2. cbn [fold_right]. fold (list_sum (map f l2)). lia. Qed.
Lemma lsumn_mem (f : nat -> nat) l k : In k l -> f k <= list_sum (map f l).
Proof. intros H. apply in_split in H. destruct H as [l1 [l2 ->]]. rewrite lsumn_split. lia. Qed.
Lemma filter_len_sum (g : nat -> bool) l : length (filter g l) = list_sum (map (fun i => if g i then 1 else 0) l).
Proof.
  unfold list_sum. induction l as [|k l IH]; [reflexivity|]. cbn [filter map fold_right].
  destruct (g k); cbn [length]; rewrite IH; reflexivity.
Qed.
Lemma filter_lengths {A} (g : A -> bool) l : length (filter g l) + length (filter (fun k => negb (g k)) l) = length l.
Proof. induction l as [|k l IH]; [reflexivity|]. cbn [filter length]. destruct (g k); cbn [negb length]; lia. Qed.

Section Branch.
  Context {F : Type} {Fo : FOps F} (HF : is_field Fo).
  Add Ring FringBr : (ff_ring _ HF).

  Definition bit (a : F) : nat := if feqb a f0 then 0 else 1.
  Definition W4 (v : nat -> F) : nat := bit (v 0) + bit (v 1) + bit (v 2) + bit (v 3).

  Lemma bit_0 a : a = f0 -> bit a = 0.
  Proof. intros ->. unfold bit. rewrite (feqb_refl HF). reflexivity. Qed.
  Lemma bit_1 a : a <> f0 -> bit a = 1.
  Proof. intros N. unfold bit. rewrite ((feqb_neq HF) _ _ N). reflexivity. Qed.
  Lemma bit_le a : bit a <= 1.
  Proof. unfold bit. destruct (feqb a f0); lia. Qed.
  Lemma bit_cases a : (a = f0 /\ bit a = 0) \/ (a <> f0 /\ bit a = 1).
  Proof. destruct (feq_dec HF a f0) as [E|E]; [left|right]; split; auto using bit_0, bit_1. Qed.
  Lemma bit_add a b : bit (fadd a b) <= bit a + bit b.
  Proof.
    destruct (bit_cases a) as [[Ea ->]|[_ ->]]; [|pose proof (bit_le (fadd a b)); lia].
    destruct (bit_cases b) as [[Eb ->]|[_ ->]]; [|pose proof (bit_le (fadd a b)); lia].
    rewrite bit_0; [lia|]. rewrite Ea, Eb. ring.
  Qed.
  Lemma bit_mul c a : c <> f0 -> bit (fmul c a) = bit a.
  Proof.
    intros Hc. destruct (bit_cases a) as [[Ea ->]|[Na ->]].
    - apply bit_0. rewrite Ea. ring.
    - apply bit_1. intros E. destruct (fmul_integral HF _ _ E); contradiction.
  Qed.

  Lemma W4_ext u v : (forall c, c < 4 -> u c = v c) -> W4 u = W4 v.
  Proof. intros H. unfold W4. rewrite !H by lia. reflexivity. Qed.
  Lemma W4_add u v : W4 (fun c => fadd (u c) (v c)) <= W4 u + W4 v.
  Proof.
    unfold W4. pose proof (bit_add (u 0) (v 0)). pose proof (bit_add (u 1) (v 1)).
    pose proof (bit_add (u 2) (v 2)). pose proof (bit_add (u 3) (v 3)). lia.
  Qed.
  Lemma W4_mul k u : k <> f0 -> W4 (fun c => fmul k (u c)) = W4 u.
  Proof. intros H. unfold W4. rewrite !bit_mul by exact H. reflexivity. Qed.
  Lemma W4_zero u : (forall c, c < 4 -> u c = f0) -> W4 u = 0.
  Proof. intros H. unfold W4. rewrite !bit_0 by (apply H; lia). reflexivity. Qed.
  Lemma W4_pos u c : c < 4 -> u c <> f0 -> 1 <= W4 u.
  Proof.
    intros Hc N. unfold W4. pose proof (bit_1 _ N).
    destruct c as [|[|[|[|c]]]]; lia.
  Qed.
  Lemma W4_nz u : 1 <= W4 u -> exists c, c < 4 /\ u c <> f0.
  Proof.
    unfold W4. intros H.
    destruct (bit_cases (u 0)) as [[E0 B0]|[E0 B0]]; [|exists 0; split; [lia|exact E0]].
    destruct (bit_cases (u 1)) as [[E1 B1]|[E1 B1]]; [|exists 1; split; [lia|exact E1]].
    destruct (bit_cases (u 2)) as [[E2 B2]|[E2 B2]]; [|exists 2; split; [lia|exact E2]].
    destruct (bit_cases (u 3)) as [[E3 B3]|[E3 B3]]; [|exists 3; split; [lia|exact E3]]. lia.
  Qed.
  Lemma W4_z u : W4 u <= 3 -> exists c, c < 4 /\ u c = f0.
  Proof.
    unfold W4. intros H.
    destruct (bit_cases (u 0)) as [[E0 B0]|[E0 B0]]; [exists 0; split; [lia|exact E0]|].
    destruct (bit_cases (u 1)) as [[E1 B1]|[E1 B1]]; [exists 1; split; [lia|exact E1]|].
    destruct (bit_cases (u 2)) as [[E2 B2]|[E2 B2]]; [exists 2; split; [lia|exact E2]|].
    destruct (bit_cases (u 3)) as [[E3 B3]|[E3 B3]]; [exists 3; split; [lia|exact E3]|]. lia.
  Qed.
  Lemma W4_le u : W4 u <= 4.
  Proof. unfold W4. pose proof (bit_le (u 0)). pose proof (bit_le (u 1)). pose proof (bit_le (u 2)). pose proof (bit_le (u 3)). lia. Qed.
  Lemma W4_le3 u c : c < 4 -> u c = f0 -> W4 u <= 3.
  Proof.
    intros Hc E. unfold W4. pose proof (bit_le (u 0)). pose proof (bit_le (u 1)). pose proof (bit_le (u 2)). pose proof (bit_le (u 3)).
    pose proof (bit_0 _ E). destruct c as [|[|[|[|c]]]]; lia.
  Qed.

  (** clearing one coordinate *)
  Definition clr (c0 : nat) (u : nat -> F) : nat -> F := fun c => if c =? c0 then f0 else u c.
  Lemma W4_clr c0 u : c0 < 4 -> W4 u = W4 (clr c0 u) + bit (u c0).
  Proof.
    intros H. unfold W4, clr. pose proof (bit_0 f0 eq_refl) as Z.
    destruct c0 as [|[|[|[|c0]]]]; cbn [Nat.eqb]; lia.
  Qed.

  Lemma lsum_cons f k l : lsum f (k :: l) = fadd (f k) (lsum f l).
  Proof. reflexivity. Qed.
  Lemma lsum_mid f l1 k l2 : lsum f (l1 ++ k :: l2) = fadd (f k) (lsum f (l1 ++ l2)).
  Proof. rewrite !(lsum_app HF), lsum_cons. ring. Qed.
  Lemma lsum_filter (g : nat -> bool) f l : lsum f l = fadd (lsum f (filter g l)) (lsum f (filter (fun k => negb (g k)) l)).
  Proof.
    induction l as [|k l IH]; [unfold lsum; cbn; ring|]. rewrite lsum_cons, IH. cbn [filter].
    destruct (g k); cbn [negb]; rewrite lsum_cons; ring.
  Qed.
  Lemma lsum_const f a l : (forall k, In k l -> f k = a) -> lsum f l = fmul (fnat (length l)) a.
  Proof.
    induction l as [|k l IH]; intros H; [unfold lsum; cbn; ring|].
    rewrite lsum_cons, IH by (intros i Hi; apply H; right; exact Hi). rewrite (H k) by (left; reflexivity).
    cbn [length]. rewrite fnat_S. ring.
  Qed.
  Lemma lsum_nz f l : lsum f l <> f0 -> exists k, In k l /\ f k <> f0.
  Proof.
    induction l as [|k l IH]; intros H; [contradiction (H eq_refl)|].
    destruct (feq_dec HF (f k) f0) as [E|E].
    - destruct IH as [i [Hi Ni]]; [|exists i; split; [right; exact Hi|exact Ni]].
      intros E'. apply H. rewrite lsum_cons, E, E'. ring.
    - exists k. split; [left; reflexivity|exact E].
  Qed.
  Lemma W4_lsum (X : nat -> nat -> F) l : W4 (fun c => lsum (fun k => X k c) l) <= list_sum (map (fun k => W4 (X k)) l).
  Proof.
    induction l as [|k l IH].
    - rewrite W4_zero; [lia|reflexivity].
    - pose proof (W4_add (X k) (fun c => lsum (fun k => X k c) l)) as H.
      change (list_sum (map (fun k => W4 (X k)) (k :: l))) with (W4 (X k) + list_sum (map (fun k => W4 (X k)) l)).
      etransitivity; [|apply Nat.add_le_mono_l, IH]. exact H.
  Qed.

  Section Core.
    Variable mv : (nat -> F) -> (nat -> F).
    Hypothesis mv_ext : forall u v, (forall c, c < 4 -> u c = v c) -> W4 (mv u) = W4 (mv v).
    Hypothesis mv_mds : forall v c, c < 4 -> v c <> f0 -> 5 <= W4 v + W4 (mv v).

    Theorem branch_core (X : nat -> nat -> F) l : 2 <= length l <= 6 ->
      (forall m, 1 <= m <= length l + 1 -> fnat m <> (f0 : F)) ->
      (exists k c, In k l /\ c < 4 /\ X k c <> f0) ->
      length l + 4 <= list_sum (map (fun k => W4 (X k) + W4 (mv (fun c => fadd (X k c) (lsum (fun k => X k c) l)))) l).
    Proof.
      intros Hn Hch [k0 [c0 [Hk0 [Hc0 Hx0]]]].
      set (S := fun c => lsum (fun k => X k c) l).
      set (f := fun k => W4 (X k) + W4 (mv (fun c => fadd (X k c) (S c)))).
      change (length l + 4 <= list_sum (map f l)).
      destruct (le_lt_dec (W4 S) 0) as [HS|HS].
      - (* the blocks sum to zero: two of them are active *)
        assert (ZS : forall c, c < 4 -> S c = f0).
        { intros c Hc. destruct (feq_dec HF (S c) f0) as [E|E]; [exact E|]. pose proof (W4_pos S c Hc E). lia. }
        assert (G : forall k c, c < 4 -> X k c <> f0 -> 5 <= f k).
        { intros k c Hc N. unfold f. rewrite (mv_ext _ (X k)).
          - exact (mv_mds _ _ Hc N).
          - intros c' Hc'. rewrite (ZS c' Hc'). ring. }
        destruct (in_split _ _ Hk0) as [l1 [l2 El]].
        assert (H2 : lsum (fun k => X k c0) (l1 ++ l2) <> f0).
        { intros E. apply Hx0. pose proof (ZS c0 Hc0) as Z. unfold S in Z. rewrite El, lsum_mid, E in Z.
          rewrite <- Z. ring. }
        destruct (lsum_nz _ _ H2) as [k1 [Hk1 Hx1]].
        rewrite El, lsumn_split. pose proof (lsumn_mem f _ _ Hk1).
        pose proof (G k0 c0 Hc0 Hx0). pose proof (G k1 c0 Hc0 Hx1).
        rewrite El in Hn. lia.
      - destruct (W4_nz _ HS) as [cs [Hcs Ncs]].
        set (isA := fun k => W4 (fun c => fadd (X k c) (S c)) =? 0).
        set (A := filter isA l). set (O := filter (fun k => negb (isA k)) l).
        assert (Hab : length A + length O = length l) by apply filter_lengths.
        rewrite (lsumn_filter isA). fold A O.
        assert (HA : forall k, In k A -> forall c, c < 4 -> X k c = fopp (S c)).
        { intros k Hk c Hc. apply filter_In in Hk. destruct Hk as [_ Hk]. apply Nat.eqb_eq in Hk.
          destruct (feq_dec HF (fadd (X k c) (S c)) f0) as [E|E].
          - transitivity (fsub (fadd (X k c) (S c)) (S c)); [ring|]. rewrite E. ring.
          - pose proof (W4_pos (fun c => fadd (X k c) (S c)) c Hc E). lia. }
        assert (HO : forall k, In k O -> exists c, c < 4 /\ fadd (X k c) (S c) <> f0).
        { intros k Hk. apply filter_In in Hk. destruct Hk as [_ Hk]. apply negb_true_iff, Nat.eqb_neq in Hk.
          apply (W4_nz (fun c => fadd (X k c) (S c))). lia. }
        assert (EO : forall c, c < 4 -> lsum (fun k => X k c) O = fmul (fnat (length A + 1)) (S c)).
        { intros c Hc. pose proof (lsum_filter isA (fun k => X k c) l) as E. fold A O in E.
          change (lsum (fun k => X k c) l) with (S c) in E.
          rewrite (lsum_const (fun k => X k c) (fopp (S c)) A) in E by (intros k Hk; apply HA; assumption).
          rewrite (fnat_add HF). change (fnat 1) with (fadd f0 (f1 : F)).
          transitivity (fsub (fadd (fmul (fnat (length A)) (fopp (S c))) (lsum (fun k => X k c) O)) (fmul (fnat (length A)) (fopp (S c)))); [ring|].
          rewrite <- E. ring. }
        assert (Ha1 : fnat (length A + 1) <> (f0 : F)) by (apply Hch; lia).
        assert (SA : length A * W4 S <= list_sum (map f A)).
        { apply lsumn_ge. intros k Hk. unfold f.
          rewrite (W4_ext (X k) (fun c => fmul (fopp f1) (S c))) by (intros c Hc; rewrite (HA k Hk c Hc); ring).
          rewrite W4_mul; [lia|]. intros E. apply (ff_one_neq_zero _ HF). transitivity (fopp (fopp (f1 : F))); [ring|]. rewrite E. ring. }
        assert (SO : W4 S <= list_sum (map (fun k => W4 (X k)) O)).
        { rewrite <- (W4_mul (fnat (length A + 1)) S Ha1).
          rewrite <- (W4_ext (fun c => lsum (fun k => X k c) O)) by (intros c Hc; apply EO; exact Hc). apply W4_lsum. }
        assert (FO : forall k, In k O -> W4 (X k) + 5 <= f k + W4 (fun c => fadd (X k c) (S c))).
        { intros k Hk. destruct (HO k Hk) as [c [Hc Nc]]. unfold f.
          pose proof (mv_mds (fun c => fadd (X k c) (S c)) c Hc Nc). lia. }
        assert (FO1 : forall k, In k O -> W4 (X k) + 1 <= f k).
        { intros k Hk. pose proof (FO k Hk). pose proof (W4_le (fun c => fadd (X k c) (S c))). lia. }
        assert (GO : W4 S + length O <= list_sum (map f O)).
        { etransitivity; [|apply (lsumn_le (fun k => W4 (X k) + 1)); exact FO1]. rewrite lsumn_plus. lia. }
        pose proof (W4_le S) as HS4.
        destruct (Nat.eq_dec (W4 S) 4) as [E4|N4]; [rewrite E4 in *; lia|].
        destruct (Nat.eq_dec (W4 S) 3) as [E3|N3].
        + destruct (Nat.eq_dec (length A) 0) as [EA|NA]; [|rewrite E3 in *; lia].
          destruct (W4_z S) as [z [Hz Ez]]; [lia|].
          destruct (le_lt_dec (list_sum (map (fun k => bit (X k z)) O)) 0) as [HB|HB].
          * assert (Gk : forall k, In k O -> W4 (X k) + 2 <= f k).
            { intros k Hk. pose proof (FO k Hk) as H1.
              pose proof (lsumn_mem (fun k => bit (X k z)) _ _ Hk) as H2. cbv beta in H2.
              assert (Xz : X k z = f0) by (destruct (bit_cases (X k z)) as [[E _]|[_ B]]; [exact E|lia]).
              pose proof (W4_le3 (fun c => fadd (X k c) (S c)) z Hz) as H3. cbv beta in H3.
              rewrite Xz, Ez in H3. specialize (H3 ltac:(ring)). lia. }
            assert (GO2 : W4 S + length O * 2 <= list_sum (map f O)).
            { etransitivity; [|apply (lsumn_le (fun k => W4 (X k) + 2)); exact Gk]. rewrite lsumn_plus. lia. }
            lia.
          * assert (S4 : 4 <= list_sum (map (fun k => W4 (X k)) O)).
            { pose proof (W4_lsum (fun k => clr z (X k)) O) as H1.
              assert (H2 : W4 (fun c => lsum (fun k => clr z (X k) c) O) = W4 S).
              { rewrite <- (W4_mul (fnat (length A + 1)) S Ha1). apply W4_ext. intros c Hc. unfold clr.
                destruct (Nat.eqb_spec c z) as [->|N].
                - rewrite Ez. rewrite (lsum_zero HF) by reflexivity. ring.
                - apply EO. exact Hc. }
              assert (H3 : list_sum (map (fun k => W4 (X k)) O) =
                list_sum (map (fun k => W4 (clr z (X k))) O) + list_sum (map (fun k => bit (X k z)) O)).
              { clear - Hz HF. unfold list_sum. induction O as [|k O' IH]; [reflexivity|]. cbn [map fold_right].
                rewrite IH, (W4_clr z (X k) Hz). lia. }
              lia. }
            assert (GO2 : 4 + length O <= list_sum (map f O)).
            { etransitivity; [|apply (lsumn_le (fun k => W4 (X k) + 1)); exact FO1]. rewrite lsumn_plus. lia. }
            rewrite E3 in *. lia.
        + (* at most two active coordinates in the sum *)
          assert (Gk : forall k, In k O -> 5 - W4 S <= f k).
          { intros k Hk. pose proof (FO k Hk). pose proof (W4_add (X k) S). cbv beta in *. lia. }
          pose proof (lsumn_ge f _ _ Gk) as GO2.
          destruct (Nat.eq_dec (length O) 0) as [E0|N0].
          { apply length_zero_iff_nil in E0. exfalso. specialize (EO cs Hcs). rewrite E0 in EO.
            change (lsum (fun k => X k cs) []) with (f0 : F) in EO. symmetry in EO.
            destruct (fmul_integral HF _ _ EO); contradiction. }
          destruct (Nat.eq_dec (length O) 1) as [E1|N1].
          * destruct O as [|k [|k' O']] eqn:EqO; try discriminate E1.
            assert (Xk : forall c, c < 4 -> X k c = fmul (fnat (length A + 1)) (S c)).
            { intros c Hc. rewrite <- EO by exact Hc. rewrite lsum_cons. change (lsum (fun k => X k c) []) with (f0 : F). ring. }
            assert (Fk : 5 <= f k).
            { pose proof (FO k (or_introl eq_refl)) as H1.
              rewrite (W4_ext (X k) (fun c => fmul (fnat (length A + 1)) (S c)) Xk) in H1.
              rewrite W4_mul in H1 by exact Ha1.
              rewrite (W4_ext (fun c => fadd (X k c) (S c)) (fun c => fmul (fnat (length A + 2)) (S c))) in H1.
              - rewrite W4_mul in H1 by (apply Hch; cbn [length] in Hab; lia). lia.
              - intros c Hc. rewrite Xk by exact Hc. replace (length A + 2) with (Datatypes.S (length A + 1)) by lia. rewrite fnat_S. ring. }
            change (list_sum (map f [k])) with (f k + 0). cbn [length] in Hab.
            assert (length A * 1 <= length A * W4 S) by (apply Nat.mul_le_mono_l; lia). lia.
          * assert (H12 : W4 S = 1 \/ W4 S = 2) by lia. destruct H12 as [E|E]; rewrite E in *; lia.
    Qed.
  End Core.

  (** ** Blocks of four words *)
  Lemma weight_blocks n x : length x = 4 * n ->
    weight x = list_sum (map (fun k => W4 (fun c => nth (4 * k + c) x f0)) (seq 0 n)).
  Proof.
    intros Hx. rewrite weight_seq, Hx, filter_len_sum. clear Hx.
    induction n as [|n IH]; [reflexivity|].
    replace (4 * S n) with (4 * n + 4) by lia. rewrite seq_app, map_app, list_sum_app, IH.
    replace (S n) with (n + 1) by lia. rewrite (seq_app n 1), map_app, list_sum_app. f_equal.
    cbn [seq map Nat.add]. unfold list_sum. cbn [fold_right]. unfold W4, bit, nz.
    replace (4 * n + 0) with (4 * n) by lia. replace (4 * n + 1) with (S (4 * n)) by lia.
    replace (4 * n + 2) with (S (S (4 * n))) by lia. replace (4 * n + 3) with (S (S (S (4 * n)))) by lia.
    destruct (feqb (nth (4 * n) x f0) f0), (feqb (nth (S (4 * n)) x f0) f0), (feqb (nth (S (S (4 * n))) x f0) f0),
      (feqb (nth (S (S (S (4 * n)))) x f0) f0); reflexivity.
  Qed.

  Definition mv4 (v : nat -> F) : nat -> F := fun r => sumn 4 (fun c => fmul (M4 r c) (v c)).

  Lemma ext_block k x a r : 2 <= k -> a < k -> r < 4 ->
    nth (4 * a + r) (mat_apply (4 * k) (4 * k) (ext_matrix (4 * k)) x) f0 =
    mv4 (fun c => fadd (nth (4 * a + c) x f0) (lsum (fun g => nth (4 * g + c) x f0) (seq 0 k))) r.
  Proof.
    intros Hk Ha Hr. rewrite mat_apply_nth by lia.
    assert (E1 : 4 * k <? 4 = false) by (apply Nat.ltb_ge; lia).
    assert (E2 : 4 * k =? 4 = false) by (apply Nat.eqb_neq; lia).
    rewrite (sumn_blocks HF).
    assert (Ed : (4 * a + r) / 4 = a) by (apply div4; lia).
    assert (Em : (4 * a + r) mod 4 = r) by (apply mod4; lia).
    set (Y := fun g => sumn 4 (fun c => fmul (M4 r c) (nth (4 * g + c) x f0))).
    etransitivity; [apply (sumn_ext k _ (fun g => fadd (fmul (if a =? g then f1 else f0) (Y g)) (Y g)))|].
    - intros g Hg. unfold Y.
      etransitivity; [apply (sumn_ext 4 _ (fun c => fmul (fnat (if a =? g then 2 else 1))
                           (fmul (M4 r c) (nth (4 * g + c) x f0))))|].
      + intros c Hc. unfold ext_matrix. rewrite E1, E2, Ed, Em.
        assert (Ed' : (4 * g + c) / 4 = g) by (apply div4; lia).
        assert (Em' : (4 * g + c) mod 4 = c) by (apply mod4; lia).
        rewrite Ed', Em'. ring.
      + rewrite (sumn_mul_l HF). destruct (a =? g).
        * change (fnat 2) with (fadd (fadd f0 f1) (f1 : F)). ring.
        * change (fnat 1) with (fadd f0 (f1 : F)). ring.
    - rewrite (sumn_add HF), (sumn_delta HF k a Y) by exact Ha.
      unfold mv4, Y. rewrite (sumn_swap HF k 4). rewrite <- (sumn_add HF). apply sumn_ext. intros c Hc.
      rewrite (sumn_mul_l HF), (lsum_seq HF). ring.
  Qed.

  Lemma W4_weight v : W4 v = weight (map v (seq 0 4)).
  Proof.
    rewrite (weight_blocks 1) by reflexivity. cbn [seq map]. unfold list_sum. cbn [fold_right].
    rewrite Nat.add_0_r. apply W4_ext. intros c Hc.
    destruct c as [|[|[|[|c]]]]; [reflexivity..|lia].
  Qed.

  Lemma mv4_mds : is_mds 4 (ext_matrix 4 : @mat F) -> forall v c, c < 4 -> v c <> f0 -> 5 <= W4 v + W4 (mv4 v).
  Proof.
    intros HM v c Hc N. rewrite !W4_weight.
    assert (E : map (mv4 v) (seq 0 4) = mat_apply 4 4 (ext_matrix 4) (map v (seq 0 4))).
    { unfold mat_apply. apply map_seq_ext. intros i Hi. unfold mv4. apply sumn_ext. intros j Hj.
      rewrite (Elim.nth_map_d _ _ j 0) by (rewrite seq_length; exact Hj). rewrite seq_nth by exact Hj. reflexivity. }
    rewrite E. apply HM; [rewrite map_length, seq_length; reflexivity|].
    intros Z. apply N. assert (H : nth c (map v (seq 0 4)) f0 = f0).
    { rewrite Z. clear - Hc. destruct c as [|[|[|[|c]]]]; [reflexivity..|lia]. }
    rewrite (Elim.nth_map_d _ _ c 0) in H by (rewrite seq_length; exact Hc). rewrite seq_nth in H by exact Hc. exact H.
  Qed.

  Theorem ext_big_branch k x : 2 <= k <= 6 -> (forall m, 1 <= m <= k + 1 -> fnat m <> (f0 : F)) ->
    is_mds 4 (ext_matrix 4 : @mat F) -> length x = 4 * k -> x <> repeat f0 (4 * k) ->
    k + 4 <= weight x + weight (mat_apply (4 * k) (4 * k) (ext_matrix (4 * k)) x).
  Proof.
    intros Hk Hch HM Hx Nx. set (X := fun a c => nth (4 * a + c) x f0).
    rewrite (weight_blocks k x Hx), (weight_blocks k) by apply mat_apply_length.
    pose proof (branch_core mv4 (fun u v E => W4_ext _ _ (fun r Hr => sumn_ext 4 _ _ (fun c Hc => f_equal (fmul (M4 r c)) (E c Hc)))) (mv4_mds HM)
      X (seq 0 k)) as B. rewrite seq_length in B.
    specialize (B Hk Hch). etransitivity; [apply B|].
    - destruct (existsb (nz x) (seq 0 (4 * k))) eqn:E.
      + apply existsb_exists in E. destruct E as [i [Hi Ni]]. apply in_seq in Hi. apply (nz_true HF) in Ni.
        pose proof (Nat.div_mod i 4 ltac:(lia)) as D. pose proof (Nat.mod_upper_bound i 4 ltac:(lia)) as M.
        exists (i / 4), (i mod 4). split; [|split; [exact M|unfold X; rewrite <- D; exact Ni]].
        apply in_seq. pose proof (Nat.div_lt_upper_bound i 4 k ltac:(lia)). lia.
      + exfalso. apply Nx. apply (nth_ext _ _ f0 f0); [rewrite repeat_length; exact Hx|]. intros i Hi.
        rewrite nth_repeat. destruct (nz x i) eqn:Z; [|apply (nz_false HF); exact Z].
        rewrite <- not_true_iff_false in E. contradiction E. apply existsb_exists. exists i. split; [apply in_seq; lia|exact Z].
    - apply Nat.eq_le_incl.
      assert (G : forall l, (forall a, In a l -> a < k) ->
        list_sum (map (fun a => W4 (X a) + W4 (mv4 (fun c => fadd (X a c) (lsum (fun a => X a c) (seq 0 k))))) l) =
        list_sum (map (fun a => W4 (X a)) l) +
        list_sum (map (fun a => W4 (fun c => nth (4 * a + c) (mat_apply (4 * k) (4 * k) (ext_matrix (4 * k)) x) f0)) l)).
      { unfold list_sum. induction l as [|a l IH]; intros Hl; [reflexivity|]. cbn [map fold_right].
        rewrite IH by (intros b Hb; apply Hl; right; exact Hb).
        assert (E : W4 (fun c => nth (4 * a + c) (mat_apply (4 * k) (4 * k) (ext_matrix (4 * k)) x) f0) =
          W4 (mv4 (fun c => fadd (X a c) (lsum (fun a => X a c) (seq 0 k))))).
        { apply W4_ext. intros c Hc. apply ext_block; [lia|apply Hl; left; reflexivity|exact Hc]. }
        rewrite E. lia. }
      apply G. intros a Ha. apply in_seq in Ha. lia.
  Qed.
End Branch.
