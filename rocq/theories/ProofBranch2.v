(** * ProofBranch2: active words of the full rounds *)
From Verif Require Import Base Field Spec FieldPow LinAlg LoopLemmas Bij Elim MDS SpecMDS SpecPoseidon2 SpecPoseidon SpecBranch SpecInstances
  ModelUtils ModelPoseidon2 ModelPoseidon ModelInstances ProofPoseidon2 ProofPoseidon ProofPoseidon2Lin ProofPoseidon2MDS ProofBranch ProofInstances.
From Verif Require ProofKats ProofGrain4.

Section Attained.
  Context {F : Type} {Fo : FOps F} (HF : is_field Fo).
  Add Ring FringBA : (ff_ring _ HF).

  Lemma weight_le (x : list F) : weight x <= length x.
  Proof. unfold weight. induction x as [|a x IH]; [reflexivity|]. cbn [filter length]. destruct (negb (feqb a f0)); cbn [length]; lia. Qed.

  Definition unit_vec (t : nat) : list F := map (fun i => if i =? 0 then f1 else f0) (seq 0 t).
  Lemma unit_weight t : 1 <= t -> weight (unit_vec t) = 1.
  Proof.
    intros Ht. unfold weight, unit_vec. destruct t as [|t]; [lia|]. cbn [seq map Nat.eqb filter].
    rewrite ((feqb_neq HF) _ _ (ff_one_neq_zero _ HF)). cbn [negb length]. f_equal.
    rewrite <- seq_shift, map_map. cbn [Nat.eqb].
    induction (seq 0 t) as [|a l IH]; [reflexivity|]. cbn [map filter]. rewrite (feqb_refl HF). exact IH.
  Qed.
  Lemma zero_weight t : weight (repeat (f0 : F) t) = 0.
  Proof. unfold weight. induction t as [|t IH]; [reflexivity|]. cbn [repeat filter]. rewrite (feqb_refl HF). exact IH. Qed.
  Lemma weight_nonzero (x : list F) t : 1 <= weight x -> x <> repeat f0 t.
  Proof. intros H ->. rewrite zero_weight in H. lia. Qed.

  Lemma mds_branch t (A : @mat F) : 1 <= t -> is_mds t A -> branch_number t A (t + 1).
  Proof.
    intros Ht HM. split; [exact HM|]. exists (unit_vec t).
    assert (L : length (unit_vec t) = t) by (unfold unit_vec; rewrite map_length, seq_length; reflexivity).
    assert (N : unit_vec t <> repeat f0 t) by (apply weight_nonzero; rewrite unit_weight; lia).
    split; [exact L|]. split; [exact N|]. pose proof (HM _ L N) as H. rewrite unit_weight in * by exact Ht.
    pose proof (weight_le (mat_apply t t A (unit_vec t))) as H'. rewrite mat_apply_length in H'. lia.
  Qed.

  (** ** Differences *)
  Definition dv (t : nat) (x y : list F) : list F := map (fun i => fsub (nth i x f0) (nth i y f0)) (seq 0 t).
  Lemma dv_length t x y : length (dv t x y) = t.
  Proof. unfold dv. rewrite map_length, seq_length. reflexivity. Qed.
  Lemma dv_nth t x y i : i < t -> nth i (dv t x y) f0 = fsub (nth i x f0) (nth i y f0).
  Proof. intros Hi. unfold dv. rewrite nth_map_seq by exact Hi. reflexivity. Qed.
  Lemma sub_eqb a b : feqb (fsub a b) f0 = feqb a (b : F).
  Proof.
    apply Bool.eq_true_iff_eq. rewrite !(ff_eqb _ HF). split; intros E.
    - apply (fsub_eq_0 HF). exact E.
    - rewrite E. ring.
  Qed.
  Lemma differ_weight t x y : length x = t -> differ x y = weight (dv t x y).
  Proof.
    intros Hx. unfold differ, weight, dv. rewrite Hx, filter_map_length. f_equal. apply filter_ext. intros i.
    rewrite sub_eqb. reflexivity.
  Qed.
  Lemma dv_nonzero t x y : length x = t -> length y = t -> x <> y -> dv t x y <> repeat f0 t.
  Proof.
    intros Hx Hy N E. apply N. apply (nth_ext _ _ f0 f0); [lia|]. intros i Hi. apply (fsub_eq_0 HF).
    rewrite <- (dv_nth t) by lia. rewrite E. apply nth_repeat.
  Qed.
  Lemma dv_mat t A x y : dv t (mat_apply t t A x) (mat_apply t t A y) = mat_apply t t A (dv t x y).
  Proof.
    apply (nth_ext _ _ f0 f0); [rewrite dv_length, mat_apply_length; reflexivity|]. intros i Hi. rewrite dv_length in Hi.
    rewrite dv_nth, !mat_apply_nth by exact Hi. rewrite <- (sumn_sub HF). apply sumn_ext. intros j Hj.
    rewrite dv_nth by exact Hj. ring.
  Qed.
  Lemma weight_pointwise t (x y : list F) : length x = t -> length y = t ->
    (forall i, i < t -> nth i x f0 = f0 <-> nth i y f0 = f0) -> weight x = weight y.
  Proof.
    intros Hx Hy H. rewrite !weight_seq, Hx, Hy. f_equal. apply filter_ext_in. intros i Hi. apply in_seq in Hi.
    specialize (H i ltac:(lia)). apply Bool.eq_true_iff_eq. rewrite !(nz_true HF). tauto.
  Qed.

  (** a matrix without zero entries spreads one non-zero word to all *)
  Lemma one_active t (x : list F) : length x = t -> weight x = 1 ->
    exists j, j < t /\ nth j x f0 <> f0 /\ forall i, i < t -> i <> j -> nth i x f0 = f0.
  Proof.
    intros Hx H. rewrite weight_seq, Hx in H.
    destruct (filter (nz x) (seq 0 t)) as [|j [|j' l]] eqn:E; try discriminate H.
    assert (Hj : In j (filter (nz x) (seq 0 t))) by (rewrite E; left; reflexivity).
    apply filter_In in Hj. destruct Hj as [Hj Nj]. apply in_seq in Hj. apply (nz_true HF) in Nj.
    exists j. split; [lia|]. split; [exact Nj|]. intros i Hi Hij.
    destruct (nz x i) eqn:Z; [|apply (nz_false HF); exact Z].
    assert (G : In i (filter (nz x) (seq 0 t))) by (apply filter_In; split; [apply in_seq; lia|exact Z]).
    rewrite E in G. destruct G as [G|[]]. congruence.
  Qed.
  Lemma entries_spread t (A : @mat F) x : (forall i j, i < t -> j < t -> A i j <> f0) -> length x = t -> weight x = 1 ->
    weight (mat_apply t t A x) = t.
  Proof.
    intros HA Hx Hw. destruct (one_active t x Hx Hw) as [j [Hj [Nj Zj]]].
    rewrite weight_seq, mat_apply_length.
    assert (G : forall l, (forall i, In i l -> i < t) -> length (filter (nz (mat_apply t t A x)) l) = length l).
    { induction l as [|i l IH]; intros Hl; [reflexivity|]. cbn [filter].
      assert (Z : nz (mat_apply t t A x) i = true).
      { apply (nz_true HF). pose proof (Hl i (or_introl eq_refl)) as Hi. rewrite mat_apply_nth by exact Hi.
        rewrite (sumn_single HF t j); [|exact Hj|intros k Hk Hkj; rewrite Zj by assumption; ring].
        intros E. destruct (fmul_integral HF _ _ E) as [E'|E']; [exact (HA i j Hi Hj E')|exact (Nj E')]. }
      rewrite Z. cbn [length]. rewrite IH; [reflexivity|]. intros k Hk. apply Hl. right. exact Hk. }
    rewrite G by (intros i Hi; apply in_seq in Hi; lia). apply seq_length.
  Qed.
  Lemma mds_entries t (A : @mat F) : is_mds t A -> forall i j, i < t -> j < t -> A i j <> f0.
  Proof.
    intros HM i j Hi Hj E. set (e := map (fun k => if k =? j then f1 else f0) (seq 0 t) : list F).
    assert (Le : length e = t) by (unfold e; rewrite map_length, seq_length; reflexivity).
    assert (Ne : forall k, k < t -> nth k e f0 = if k =? j then f1 else f0) by (intros k Hk; unfold e; rewrite nth_map_seq by exact Hk; reflexivity).
    assert (We : weight e = 1).
    { rewrite weight_seq, Le, (filter_ext_in _ (fun k => k =? j)).
      - clear - Hj. induction t as [|t IH]; [lia|]. rewrite seq_S, filter_app, app_length. cbn [Nat.add filter].
        destruct (Nat.eqb_spec t j) as [->|N].
        + assert (Z : filter (fun k => k =? j) (seq 0 j) = []).
          { rewrite (filter_ext_in _ (fun _ => false)); [|intros k Hk; apply in_seq in Hk; apply Nat.eqb_neq; lia].
            clear. induction (seq 0 j) as [|a l IH]; [reflexivity|exact IH]. }
          rewrite Z. reflexivity.
        + rewrite IH by lia. reflexivity.
      - intros k Hk. apply in_seq in Hk. unfold nz. rewrite Ne by lia. destruct (k =? j).
        + rewrite ((feqb_neq HF) _ _ (ff_one_neq_zero _ HF)). reflexivity.
        + rewrite (feqb_refl HF). reflexivity. }
    assert (H := HM e Le (weight_nonzero e t ltac:(lia))). rewrite We in H.
    assert (H2 : weight (mat_apply t t A e) < t); [|lia].
    rewrite weight_seq, mat_apply_length.
    assert (G : length (filter (nz (mat_apply t t A e)) (seq 0 t)) + length (filter (fun k => negb (nz (mat_apply t t A e) k)) (seq 0 t)) = t)
      by (rewrite filter_lengths; apply seq_length).
    assert (Hin : In i (filter (fun k => negb (nz (mat_apply t t A e) k)) (seq 0 t))).
    { apply filter_In. split; [apply in_seq; lia|]. apply negb_true_iff, (nz_false HF). rewrite mat_apply_nth by exact Hi.
      apply (sumn_zero HF). intros k Hk. rewrite Ne by exact Hk. destruct (Nat.eqb_spec k j) as [->|]; [rewrite E|]; ring. }
    destruct (filter (fun k => negb (nz (mat_apply t t A e) k)) (seq 0 t)); [destruct Hin|cbn [length] in G; lia].
  Qed.
End Attained.

Section Rounds.
  Context {F : Type} {Fo : FOps F} {p : Z} (HP : is_prime_field Fo p).
  Let HF : is_field Fo := prime_field_is_field HP.
  Add Ring FringBR : (ff_ring _ HF).

  (** constants, x^d on every word, matrix *)
  Definition rnd (t d : nat) (A : @mat F) (c x : list F) : list F :=
    mat_apply t t A (map (fun i => fpow (fadd (nth i x f0) (nth i c f0)) d) (seq 0 t)).

  Lemma rnd_weight t d A c x y : d <> 0 -> Z.gcd (Z.of_nat d) (p - 1) = 1%Z -> length x = t -> length y = t ->
    exists z, length z = t /\ differ x y = weight z /\ differ (rnd t d A c x) (rnd t d A c y) = weight (mat_apply t t A z) /\
      (x <> y -> z <> repeat f0 t).
  Proof.
    intros Hd Hg Hx Hy. destruct (pow_inverse HP d Hd Hg) as [r Hr].
    set (sb := fun x : list F => map (fun i => fpow (fadd (nth i x f0) (nth i c f0)) d) (seq 0 t)).
    assert (Lsb : forall x, length (sb x) = t) by (intros; unfold sb; rewrite map_length, seq_length; reflexivity).
    assert (Nsb : forall x i, i < t -> nth i (sb x) f0 = fpow (fadd (nth i x f0) (nth i c f0)) d) by (intros x' i Hi; unfold sb; rewrite nth_map_seq by exact Hi; reflexivity).
    exists (dv t (sb x) (sb y)). split; [apply dv_length|].
    assert (Hw : weight (dv t x y) = weight (dv t (sb x) (sb y))).
    { apply (weight_pointwise HF t); [apply dv_length|apply dv_length|]. intros i Hi. rewrite !dv_nth, !Nsb by exact Hi. split; intros E.
      - apply (fsub_eq_0 HF) in E. rewrite E. ring.
      - apply (fsub_eq_0 HF) in E. apply (f_equal r) in E. rewrite !(proj1 (Hr _)) in E.
        transitivity (fsub (fadd (nth i x f0) (nth i c f0)) (fadd (nth i y f0) (nth i c f0))); [ring|]. rewrite E. ring. }
    split; [rewrite (differ_weight HF t) by exact Hx; exact Hw|]. split.
    - rewrite (differ_weight HF t) by apply mat_apply_length. unfold rnd. fold (sb x). fold (sb y). rewrite (dv_mat HF). reflexivity.
    - intros N. apply (weight_nonzero HF). rewrite <- Hw. pose proof (dv_nonzero HF t x y Hx Hy N) as Nz.
      destruct (weight (dv t x y)) eqn:E; [|lia]. exfalso. apply Nz. apply (nth_ext _ _ f0 f0); [rewrite dv_length, repeat_length; reflexivity|].
      intros i Hi. rewrite dv_length in Hi. rewrite nth_repeat. rewrite weight_seq, dv_length in E. apply length_zero_iff_nil in E.
      destruct (nz (dv t x y) i) eqn:Z; [|apply (nz_false HF); exact Z].
      assert (G : In i (filter (nz (dv t x y)) (seq 0 t))) by (apply filter_In; split; [apply in_seq; lia|exact Z]). rewrite E in G. destruct G.
  Qed.

  Lemma rnd_active t d A c b : d <> 0 -> Z.gcd (Z.of_nat d) (p - 1) = 1%Z -> branch_number t A b ->
    active_words t (fun x => Ok (rnd t d A c x)) b.
  Proof.
    intros Hd Hg [HB [z [Lz [Nz Ez]]]]. split.
    - intros x y Hx Hy N. destruct (rnd_weight t d A c x y Hd Hg Hx Hy) as [w [Lw [E1 [E2 E3]]]].
      do 2 eexists. split; [reflexivity|]. split; [reflexivity|]. rewrite E1, E2. apply HB; [exact Lw|exact (E3 N)].
    - destruct (pow_inverse HP d Hd Hg) as [r Hr].
      set (x := map (fun i => fsub (r (nth i z f0)) (nth i c f0)) (seq 0 t)).
      set (y := map (fun i => fsub (r f0) (nth i c f0)) (seq 0 t)).
      assert (Lx : length x = t) by (unfold x; rewrite map_length, seq_length; reflexivity).
      assert (Ly : length y = t) by (unfold y; rewrite map_length, seq_length; reflexivity).
      exists x, y. do 2 eexists. split; [exact Lx|]. split; [exact Ly|].
      assert (Dz : dv t (map (fun i => fpow (fadd (nth i x f0) (nth i c f0)) d) (seq 0 t))
                        (map (fun i => fpow (fadd (nth i y f0) (nth i c f0)) d) (seq 0 t)) = z).
      { apply (nth_ext _ _ f0 f0); [rewrite dv_length; lia|]. intros i Hi. rewrite dv_length in Hi.
        rewrite dv_nth, !nth_map_seq by exact Hi. unfold x, y. rewrite !nth_map_seq by exact Hi.
        replace (fadd (fsub (r (nth i z f0)) (nth i c f0)) (nth i c f0)) with (r (nth i z f0)) by ring.
        replace (fadd (fsub (r f0) (nth i c f0)) (nth i c f0)) with (r f0) by ring.
        rewrite !(proj2 (Hr _)). ring. }
      assert (N : x <> y).
      { intros E. apply Nz. rewrite <- Dz, E. apply (nth_ext _ _ f0 f0); [rewrite dv_length, repeat_length; reflexivity|].
        intros i Hi. rewrite dv_length in Hi. rewrite dv_nth, nth_repeat by exact Hi. ring. }
      split; [exact N|]. split; [reflexivity|]. split; [reflexivity|].
      rewrite (differ_weight HF t (rnd t d A c x)) by apply mat_apply_length. unfold rnd. rewrite (dv_mat HF), Dz.
      rewrite (differ_weight HF t) by exact Lx. rewrite <- Ez. f_equal.
      apply (weight_pointwise HF t); [apply dv_length|exact Lz|]. intros i Hi. rewrite <- Dz at 1.
      rewrite !dv_nth, !nth_map_seq by exact Hi. split; intros E.
      + apply (fsub_eq_0 HF) in E. rewrite E. ring.
      + apply (fsub_eq_0 HF) in E. apply (f_equal r) in E. rewrite !(proj1 (Hr _)) in E.
        transitivity (fsub (fadd (nth i x f0) (nth i c f0)) (fadd (nth i y f0) (nth i c f0))); [ring|]. rewrite E. ring.
  Qed.

  Lemma rnd_diffusion t d A c : d <> 0 -> Z.gcd (Z.of_nat d) (p - 1) = 1%Z -> (forall i j, i < t -> j < t -> A i j <> f0) ->
    full_diffusion t (fun x => Ok (rnd t d A c x)).
  Proof.
    intros Hd Hg HA x y Hx Hy E. destruct (rnd_weight t d A c x y Hd Hg Hx Hy) as [w [Lw [E1 [E2 _]]]].
    do 2 eexists. split; [reflexivity|]. split; [reflexivity|]. rewrite E2. apply (entries_spread HF); [exact HA|exact Lw|]. congruence.
  Qed.

  Lemma active_ext t (f g : list F -> res (list F)) b : (forall x, length x = t -> g x = f x) -> active_words t f b -> active_words t g b.
  Proof.
    intros E [H [x [y [u [v [Hx [Hy [N [Hu [Hv Hb]]]]]]]]]]. split.
    - intros x' y' Hx' Hy' N'. rewrite !E by assumption. apply H; assumption.
    - exists x, y, u, v. rewrite !E by assumption. repeat split; assumption.
  Qed.
  Lemma diffusion_ext t (f g : list F -> res (list F)) : (forall x, length x = t -> g x = f x) -> full_diffusion t f -> full_diffusion t g.
  Proof. intros E H x y Hx Hy D. rewrite !E by assumption. apply H; assumption. Qed.

  (** ** The external matrices *)
  Lemma bad_small t q : ~ In p (branch_bad_primes t) -> (1 < q)%Z -> (forall r, prime r -> (r | q)%Z -> In r (branch_bad_primes t)) -> ~ (p | q)%Z.
  Proof. intros H _ Hq D. apply H, Hq; [apply (pf_prime _ _ HP)|exact D]. Qed.

  Lemma not_div t m : 4 <= t -> ~ In p (branch_bad_primes t) -> (1 <= m <= 14)%Z -> ~ (p | m)%Z.
  Proof.
    intros Ht Hp Hm D. pose proof (pf_prime _ _ HP) as Pp. pose proof (prime_ge_2 _ Pp) as G.
    unfold branch_bad_primes in Hp. assert (E : (t <? 4) = false) by (apply Nat.ltb_ge; exact Ht). rewrite E in Hp. cbn [In] in Hp.
    assert (Hle : (p <= 14)%Z) by (apply Z.divide_pos_le in D; lia).
    assert (C : p = 4%Z \/ p = 6%Z \/ p = 8%Z \/ p = 9%Z \/ p = 10%Z \/ p = 12%Z \/ p = 14%Z) by lia.
    assert (N : forall a b, p = (a * b)%Z -> (1 < a)%Z -> (1 < b)%Z -> False).
    { intros a b Eab Ha Hb. destruct (prime_divisors p Pp a) as [H|[H|[H|H]]]; [exists b; lia|lia|lia|nia|lia]. }
    destruct C as [C|[C|[C|[C|[C|[C|C]]]]]];
      [apply (N 2 2)%Z|apply (N 2 3)%Z|apply (N 2 4)%Z|apply (N 3 3)%Z|apply (N 2 5)%Z|apply (N 2 6)%Z|apply (N 2 7)%Z]; lia.
  Qed.
  Lemma fnat_not_0 t m : 4 <= t -> ~ In p (branch_bad_primes t) -> 1 <= m <= 14 -> fnat m <> (f0 : F).
  Proof.
    intros Ht Hp Hm E. rewrite (fnat_Z HP) in E. apply (f_of_Z_eq_0 HP) in E. revert E. apply (not_div t); [exact Ht|exact Hp|lia].
  Qed.

  Lemma M4_entry i j : i < 4 -> j < 4 -> exists m, 1 <= m <= 7 /\ (M4 i j : F) = fnat m.
  Proof.
    intros Hi Hj. unfold M4. eexists. split; [|reflexivity].
    do 4 (destruct i as [|i]; [do 4 (destruct j as [|j]; [cbn [nth]; lia|]); lia|]). lia.
  Qed.
  Lemma ext_entries t i j : p2_width t -> ~ In p (branch_bad_primes t) -> i < t -> j < t -> ext_matrix t i j <> (f0 : F).
  Proof.
    intros Hw Hp Hi Hj. unfold ext_matrix. destruct (Nat.ltb_spec t 4) as [H4|H4].
    - assert (P2 : (2 < p)%Z).
      { pose proof (prime_ge_2 _ (pf_prime _ _ HP)). unfold branch_bad_primes in Hp.
        assert (E : (t <? 4) = true) by (apply Nat.ltb_lt; exact H4). rewrite E in Hp. cbn [In] in Hp. lia. }
      intros E. rewrite (fnat_Z HP) in E. apply (f_of_Z_eq_0 HP) in E. destruct (i =? j); apply Z.divide_pos_le in E; lia.
    - destruct (Nat.eqb_spec t 4) as [->|N4].
      + destruct (M4_entry i j Hi Hj) as [m [Hm ->]]. apply (fnat_not_0 4); [lia|exact Hp|lia].
      + destruct (M4_entry (i mod 4) (j mod 4)) as [m [Hm ->]]; [apply Nat.mod_upper_bound; lia..|].
        intros E. destruct (fmul_integral HF _ _ E) as [E'|E']; revert E'.
        * apply (fnat_not_0 t); [lia|exact Hp|]. destruct (i / 4 =? j / 4); lia.
        * apply (fnat_not_0 t); [lia|exact Hp|lia].
  Qed.

  (** a vector whose image has four non-zero words only *)
  Definition zmin (k : nat) : list Z := flat_map (fun g => [if g =? 0 then Z.of_nat k else (-1)%Z; 0%Z; 0%Z; 0%Z]) (seq 0 k).
  Definition zbig (i j : nat) : Z :=
    ((if (i / 4 =? j / 4)%nat then 2 else 1) * nth (j mod 4) (nth (i mod 4) [[5;7;1;3];[4;6;1;1];[1;3;5;7];[1;1;4;6]] []) 0)%Z.
  Lemma zbig_ok t i j : 4 < t -> (ext_matrix t i j : F) = f_of_Z (zbig i j).
  Proof.
    intros Ht. unfold ext_matrix, zbig.
    assert (E1 : t <? 4 = false) by (apply Nat.ltb_ge; lia).
    assert (E2 : t =? 4 = false) by (apply Nat.eqb_neq; lia). rewrite E1, E2.
    rewrite (f_of_Z_mul HP), (fnat_Z HP). f_equal; [destruct (i / 4 =? j / 4); reflexivity|].
    unfold M4. rewrite (fnat_Z HP). f_equal.
    pose proof (Nat.mod_upper_bound i 4 ltac:(lia)) as Hi. pose proof (Nat.mod_upper_bound j 4 ltac:(lia)) as Hj.
    destruct (i mod 4) as [|[|[|[|a]]]]; [| | | |lia]; destruct (j mod 4) as [|[|[|[|b]]]]; try lia; reflexivity.
  Qed.
  Lemma zmin_apply t : p2_big t ->
    length (zmin (t / 4)) = t /\
    zapply t zbig (zmin (t / 4)) = map (fun i => if i <? 4 then (Z.of_nat (t / 4 + 1) * nth i [5;4;1;1] 0)%Z else 0%Z) (seq 0 t).
  Proof.
    intros H. unfold p2_big in H. cbn [In] in H.
    destruct H as [<-|[<-|[<-|[<-|[<-|[]]]]]]; split; vm_compute; reflexivity.
  Qed.
  Lemma zweight_cons q a v : zweight q (a :: v) = (if (a mod q =? 0)%Z then 0 else 1) + zweight q v.
  Proof. unfold zweight. cbn [filter]. destruct (a mod q =? 0)%Z; reflexivity. Qed.
  Lemma ndiv_mod a : ~ (p | a)%Z -> (a mod p =? 0)%Z = false.
  Proof. intros H. apply Z.eqb_neq. intros E. apply H. apply Z.mod_divide; [|exact E]. pose proof (pf_p_ge_2 HP). lia. Qed.

  Theorem ext_branch t : p2_width t -> ~ In p (branch_bad_primes t) -> branch_number t (ext_matrix t : @mat F) (p2_branch t).
  Proof.
    intros Hw Hp. destruct (le_lt_dec t 4) as [H4|H4].
    - unfold p2_branch. assert (E : (t <=? 4) = true) by (apply Nat.leb_le; exact H4). rewrite E.
      assert (Ht : In t [2;3;4]) by (unfold p2_width in Hw; cbn [In] in *; lia).
      apply (mds_branch HF); [cbn [In] in Ht; lia|]. apply (ext_mds_iff HP t Ht).
      cbn [In] in Ht. destruct Ht as [<-|[<-|[<-|[]]]]; exact Hp.
    - assert (Hbig : p2_big t) by (unfold p2_width in Hw; unfold p2_big; cbn [In] in *; lia).
      destruct (p2_big_4 _ Hbig) as [Et [Hk Hg]].
      unfold p2_branch. assert (E : (t <=? 4) = false) by (apply Nat.leb_gt; exact H4). rewrite E.
      assert (Hk6 : t / 4 <= 6) by (unfold p2_big in Hbig; cbn [In] in Hbig; destruct Hbig as [<-|[<-|[<-|[<-|[<-|[]]]]]]; cbn; lia).
      split.
      + intros x Hx Nx. assert (HM : is_mds 4 (ext_matrix 4 : @mat F)).
        { apply (ext_mds_iff HP 4); [cbn [In]; lia|]. unfold branch_bad_primes in Hp.
          assert (E4 : (t <? 4) = false) by (apply Nat.ltb_ge; lia). rewrite E4 in Hp. exact Hp. }
        pose proof (ext_big_branch HF (t / 4) x ltac:(lia)) as B. rewrite <- Et in B. apply B; [|exact HM|exact Hx|exact Nx].
        intros m Hm. apply (fnat_not_0 t); [lia|exact Hp|lia].
      + destruct (zmin_apply t Hbig) as [Lz Az].
        exists (map f_of_Z (zmin (t / 4))). split; [rewrite map_length; exact Lz|].
        rewrite (zapply_of_Z HP t zbig) by (auto; intros; apply zbig_ok; lia). rewrite !(weight_of_Z HP), Az.
        assert (D : forall m, (1 <= m <= 14)%Z -> (m mod p =? 0)%Z = false) by (intros m Hm; apply ndiv_mod, (not_div t); [lia|exact Hp|exact Hm]).
        assert (D' : forall a b, (1 <= a <= 14)%Z -> (1 <= b <= 14)%Z -> ((a * b) mod p =? 0)%Z = false).
        { intros a b Ha Hb. apply ndiv_mod. intros X. apply prime_mult in X; [|apply (pf_prime _ _ HP)].
          destruct X as [X|X]; revert X; apply (not_div t); [lia|exact Hp|lia|lia|exact Hp|lia]. }
        assert (D0 : (0 mod p =? 0)%Z = true) by (rewrite Zmod_0_l; reflexivity).
        assert (Dm : ((-1) mod p =? 0)%Z = false).
        { apply ndiv_mod. intros X. apply Z.divide_opp_r in X. revert X. apply (not_div t); [lia|exact Hp|lia]. }
        assert (Z1 : zweight p (zmin (t / 4)) = t / 4).
        { unfold zmin. assert (G : forall l, (forall g, In g l -> g <= 5) ->
            zweight p (flat_map (fun g => [if g =? 0 then Z.of_nat (t / 4) else (-1)%Z; 0%Z; 0%Z; 0%Z]) l) = length l).
          { induction l as [|g l IH]; intros Hl; [reflexivity|]. cbn [flat_map app length].
            rewrite !zweight_cons, D0, IH by (intros a Ha; apply Hl; right; exact Ha).
            destruct (g =? 0); [rewrite D by lia|rewrite Dm]; reflexivity. }
          rewrite G; [apply seq_length|]. intros g Hg'. apply in_seq in Hg'. lia. }
        assert (Z2 : zweight p (map (fun i => if i <? 4 then (Z.of_nat (t / 4 + 1) * nth i [5;4;1;1] 0)%Z else 0%Z) (seq 0 t)) = 4).
        { assert (Es : seq 0 t = seq 0 4 ++ seq 4 (t - 4)) by (etransitivity; [|exact (seq_app 4 (t - 4) 0)]; f_equal; lia). rewrite Es, map_app. cbn [seq map Nat.add Nat.ltb Nat.leb nth app].
          rewrite !zweight_cons. rewrite !D' by lia.
          assert (G : forall l, (forall i, In i l -> 4 <= i) ->
            zweight p (map (fun i => if i <? 4 then (Z.of_nat (t / 4 + 1) * nth i [5;4;1;1] 0)%Z else 0%Z) l) = 0).
          { induction l as [|i l IH]; intros Hl; [reflexivity|]. cbn [map]. rewrite zweight_cons.
            rewrite IH by (intros a Ha; apply Hl; right; exact Ha).
            assert (Ei : (i <? 4) = false) by (apply Nat.ltb_ge, Hl; left; reflexivity). rewrite Ei, D0. reflexivity. }
          rewrite G; [reflexivity|]. intros i Hi. apply in_seq in Hi. lia. }
        split; [|rewrite Z1, Z2; reflexivity].
        apply (weight_nonzero HF). rewrite (weight_of_Z HP), Z1. lia.
  Qed.

  (** ** The full rounds *)
  Theorem p2_full_active dbg t d rf rp (diag : list F) (mi rc : list (list F)) P r :
    p2_new dbg t d rf rp diag mi rc = Ok P -> (N.of_nat rf + N.of_nat rp < usize_mod)%N ->
    p2_width t -> ~ In p (branch_bad_primes t) -> sbox_degree d -> Z.gcd (Z.of_nat d) (p - 1) = 1%Z ->
    t <= length (nth r rc []) ->
    active_words t (p2_full_round P r) (p2_branch t) /\ full_diffusion t (p2_full_round P r).
  Proof.
    intros HN Hov Hw Hp Hd Hg Hr. destruct (p2_new_ok dbg t d rf rp diag mi rc P HN Hov) as [_ [_ EP]].
    assert (d0 : d <> 0) by (unfold sbox_degree in Hd; cbn [In] in Hd; lia).
    assert (E : forall x, length x = t -> p2_full_round P r x = Ok (rnd t d (ext_matrix t) (nth r rc []) x)).
    { intros x Hx. rewrite (p2_full_round_ok HF) by (rewrite EP; assumption). rewrite EP. reflexivity. }
    split.
    - apply (active_ext t _ _ _ E). apply rnd_active; [exact d0|exact Hg|apply ext_branch; assumption].
    - apply (diffusion_ext t _ _ E). apply rnd_diffusion; [exact d0|exact Hg|]. intros i j Hi Hj. apply ext_entries; assumption.
  Qed.

  Theorem ps_full_active dbg t d rf rp (mds rc : list (list F)) P r :
    ps_new dbg t d rf rp mds rc = Ok P -> (N.of_nat rf + N.of_nat rp < usize_mod)%N ->
    dims t t mds -> 1 <= t -> is_mds t (entry mds) -> Z.gcd (Z.of_nat d) (p - 1) = 1%Z ->
    t <= length (nth r rc []) ->
    active_words t (ps_full_round dbg P r) (t + 1) /\ full_diffusion t (ps_full_round dbg P r).
  Proof.
    intros HN Hov Hdm Ht HM Hg Hr. destruct (ps_new_ok dbg t d rf rp mds rc P HN Hov) as [Hd [_ [_ [m_i [v [w [o [_ [_ EP]]]]]]]]].
    assert (d0 : d <> 0) by (unfold sbox_degree in Hd; cbn [In] in Hd; lia).
    assert (E : forall x, length x = t -> ps_full_round dbg P r x = Ok (rnd t d (entry mds) (nth r rc []) x)).
    { intros x Hx. rewrite (ps_full_round_ok HF); [rewrite EP; reflexivity| | |]; rewrite EP; [split; [exact Hd|split; [exact Hdm|exact Ht]]|exact Hx|exact Hr]. }
    split.
    - apply (active_ext t _ _ _ E). apply rnd_active; [exact d0|exact Hg|apply (mds_branch HF); assumption].
    - apply (diffusion_ext t _ _ E). apply rnd_diffusion; [exact d0|exact Hg|]. apply (mds_entries HF). exact HM.
  Qed.

  (** ** Consecutive full rounds *)
  Lemma mds_nonsingular t (A : @mat F) : is_mds t A -> nonsingular t A.
  Proof.
    intros HM x Hx j Hj. destruct (feq_dec HF (x j) f0) as [E|N]; [exact E|]. exfalso.
    set (z := map x (seq 0 t)). assert (Lz : length z = t) by (unfold z; rewrite map_length, seq_length; reflexivity).
    assert (Nz : z <> repeat f0 t).
    { intros E. apply N. rewrite <- (nth_map_seq x f0 t j Hj). fold z. rewrite E. apply nth_repeat. }
    pose proof (HM z Lz Nz) as H.
    assert (Az : mat_apply t t A z = repeat f0 t).
    { apply (nth_ext _ _ f0 f0); [rewrite mat_apply_length, repeat_length; reflexivity|]. intros i Hi. rewrite mat_apply_length in Hi.
      rewrite nth_repeat, mat_apply_nth by exact Hi. etransitivity; [|exact (Hx i Hi)]. apply sumn_ext. intros k Hk.
      unfold z. rewrite nth_map_seq by exact Hk. reflexivity. }
    rewrite Az, (zero_weight HF) in H. pose proof (weight_le z). lia.
  Qed.
  Lemma rnd_inj t d A c x y : d <> 0 -> Z.gcd (Z.of_nat d) (p - 1) = 1%Z -> nonsingular t A ->
    length x = t -> length y = t -> x <> y -> rnd t d A c x <> rnd t d A c y.
  Proof.
    intros Hd Hg HA Hx Hy N E. apply N. destruct (pow_inverse HP d Hd Hg) as [r Hr].
    unfold rnd in E. destruct (lbij_mat HF t A HA) as [_ [g Hgg]].
    set (sb := fun x : list F => map (fun i => fpow (fadd (nth i x f0) (nth i c f0)) d) (seq 0 t)) in *.
    assert (Lsb : forall x, length (sb x) = t) by (intros; unfold sb; rewrite map_length, seq_length; reflexivity).
    fold (sb x) in E. fold (sb y) in E. apply (f_equal g) in E. rewrite !(proj2 (proj2 (Hgg _ (Lsb _)))) in E.
    apply (nth_ext _ _ f0 f0); [lia|]. intros i Hi. apply (f_equal (fun l => r (nth i l f0))) in E.
    unfold sb in E. rewrite !nth_map_seq in E by lia. rewrite !(proj1 (Hr _)) in E.
    transitivity (fsub (fadd (nth i x f0) (nth i c f0)) (nth i c f0)); [ring|]. rewrite E. ring.
  Qed.

  Lemma rnd_trail t d A b (rc : list (list F)) (round : nat -> list F -> res (list F)) lo m :
    d <> 0 -> Z.gcd (Z.of_nat d) (p - 1) = 1%Z -> nonsingular t A -> branch_number t A b ->
    (forall r x, lo <= r < lo + 2 * m -> length x = t -> round r x = Ok (rnd t d A (nth r rc []) x)) ->
    trail_words t b round lo m.
  Proof.
    intros Hd Hg HA HB HR x y Hx Hy N.
    set (st := fun (x : list F) k => fold_left (fun s r => rnd t d A (nth r rc []) s) (seq lo k) x).
    assert (G : forall x, length x = t -> forall k, k <= 2 * m -> for_range lo (lo + k) round x = Ok (st x k) /\ length (st x k) = t).
    { intros x' Hx' k Hk. unfold st. replace k with (lo + k - lo) at 2 3 by lia.
      apply (for_range_fold (fun s r => rnd t d A (nth r rc []) s) (fun s => length s = t)); [exact Hx'|].
      intros r s Hr Hs. split; [apply HR; [lia|exact Hs]|apply mat_apply_length]. }
    assert (S1 : forall x k, st x (S k) = rnd t d A (nth (lo + k) rc []) (st x k)).
    { intros x' k. unfold st. rewrite seq_S, fold_left_app. reflexivity. }
    exists (st x), (st y). split; [intros k Hk; split; [apply G|apply G]; assumption|].
    assert (Nk : forall k, k <= 2 * m -> st x k <> st y k).
    { induction k as [|k IH]; intros Hk; [exact N|]. rewrite !S1.
      apply rnd_inj; [exact Hd|exact Hg|exact HA|apply G; [exact Hx|lia]|apply G; [exact Hy|lia]|apply IH; lia]. }
    assert (Q : forall j, j <= m -> j * b <= list_sum (map (fun k => differ (st x k) (st y k)) (seq 0 (2 * j)))).
    { induction j as [|j IH]; intros Hj; [lia|]. specialize (IH ltac:(lia)).
      replace (2 * S j) with (2 * j + 2) by lia. rewrite seq_app, map_app, list_sum_app. cbn [seq map Nat.add].
      change (list_sum [differ (st x (2 * j)) (st y (2 * j)); differ (st x (S (2 * j))) (st y (S (2 * j)))])
        with (differ (st x (2 * j)) (st y (2 * j)) + (differ (st x (S (2 * j))) (st y (S (2 * j))) + 0)).
      rewrite !S1. destruct (rnd_active t d A (nth (lo + 2 * j) rc []) b Hd Hg HB) as [H _].
      destruct (H (st x (2 * j)) (st y (2 * j))) as [u [v [Eu [Ev Hb]]]]; [apply G; [exact Hx|lia]|apply G; [exact Hy|lia]|apply Nk; lia|].
      injection Eu as <-. injection Ev as <-. cbn [Nat.mul] in *. lia. }
    apply Q. lia.
  Qed.

  Lemma bad_sub t q : In q (ext_bad_primes t) -> p2_width t -> t <> 2 -> t <> 3 -> In q (branch_bad_primes t).
  Proof.
    intros H Hw N2 N3. unfold p2_width in Hw. cbn [In] in Hw.
    destruct Hw as [<-|[<-|[<-|[<-|[<-|[<-|[<-|[<-|[]]]]]]]]]; try lia; cbn [ext_bad_primes In branch_bad_primes Nat.ltb Nat.leb] in *; intuition.
  Qed.
  Lemma ext_nonsing t : p2_width t -> ~ In p (branch_bad_primes t) -> nonsingular t (ext_matrix t : @mat F).
  Proof.
    intros Hw Hp. apply (ext_nonsingular HP); [exact Hw|]. intros H. apply Hp.
    destruct (Nat.eq_dec t 2) as [->|N2]; [cbn in *; intuition|]. destruct (Nat.eq_dec t 3) as [->|N3]; [cbn in *; intuition|].
    apply bad_sub; assumption.
  Qed.

  Theorem p2_trail dbg t d rf rp (diag : list F) (mi rc : list (list F)) P lo m :
    p2_new dbg t d rf rp diag mi rc = Ok P -> (N.of_nat rf + N.of_nat rp < usize_mod)%N ->
    p2_width t -> ~ In p (branch_bad_primes t) -> sbox_degree d -> Z.gcd (Z.of_nat d) (p - 1) = 1%Z ->
    (forall r, lo <= r < lo + 2 * m -> t <= length (nth r rc [])) ->
    trail_words t (p2_branch t) (p2_full_round P) lo m.
  Proof.
    intros HN Hov Hw Hp Hd Hg Hr. destruct (p2_new_ok dbg t d rf rp diag mi rc P HN Hov) as [_ [_ EP]].
    apply (rnd_trail t d (ext_matrix t) (p2_branch t) rc);
      [unfold sbox_degree in Hd; cbn [In] in Hd; lia|exact Hg|apply ext_nonsing; assumption|apply ext_branch; assumption|].
    intros r x Hlo Hx. rewrite (p2_full_round_ok HF) by (rewrite EP; auto). rewrite EP. reflexivity.
  Qed.
  Theorem ps_trail dbg t d rf rp (mds rc : list (list F)) P lo m :
    ps_new dbg t d rf rp mds rc = Ok P -> (N.of_nat rf + N.of_nat rp < usize_mod)%N ->
    dims t t mds -> 1 <= t -> is_mds t (entry mds) -> Z.gcd (Z.of_nat d) (p - 1) = 1%Z ->
    (forall r, lo <= r < lo + 2 * m -> t <= length (nth r rc [])) ->
    trail_words t (t + 1) (ps_full_round dbg P) lo m.
  Proof.
    intros HN Hov Hdm Ht HM Hg Hr. destruct (ps_new_ok dbg t d rf rp mds rc P HN Hov) as [Hd [_ [_ [m_i [v [w [o [_ [_ EP]]]]]]]]].
    apply (rnd_trail t d (entry mds) (t + 1) rc);
      [unfold sbox_degree in Hd; cbn [In] in Hd; lia|exact Hg|apply mds_nonsingular; exact HM|apply (mds_branch HF); assumption|].
    intros r x Hlo Hx. rewrite (ps_full_round_ok HF); [rewrite EP; reflexivity| | |]; rewrite EP; [split; [exact Hd|split; [exact Hdm|exact Ht]]|exact Hx|apply Hr; exact Hlo].
  Qed.
End Rounds.

(** ** The shipped instances *)
Theorem p2_shipped_active I : In I p2_instances -> forall F (Fo : FOps F), is_prime_field Fo (qi_p I) -> forall dbg,
  exists Q, p2_instance_params dbg I = Ok Q /\
  (forall r, r < qi_rf I / 2 \/ qi_rf I / 2 + qi_rp I <= r < qi_rf I + qi_rp I ->
     active_words (qi_t I) (p2_full_round Q r) (p2_branch (qi_t I)) /\ full_diffusion (qi_t I) (p2_full_round Q r)) /\
  (forall lo m, lo + 2 * m <= qi_rf I / 2 \/ qi_rf I / 2 + qi_rp I <= lo /\ lo + 2 * m <= qi_rf I + qi_rp I ->
     trail_words (qi_t I) (p2_branch (qi_t I)) (p2_full_round Q) lo m).
Proof.
  intros HI F Fo HP dbg. destruct (ProofKats.p2_all I HI) as [P [Hok [Hpr H]]].
  destruct (p2_cert_parts P Hok I H) as [Ep [H7 [Hb [HA [HC HE]]]]].
  destruct (p2_new_succeeds (F := F) dbg _ _ _ _ _ (map f_of_Z (qi_diag I)) (map (map f_of_Z) (qi_mat I)) (map (map f_of_Z) (qi_rc I)) HA) as [Q HQ].
  exists Q. rewrite (p2_instance_residues dbg I HC Hb). split; [exact HQ|].
  destruct HA as [Hd He Hw Hp1 Hg Hov].
  pose proof (Nat.div_mod (qi_rf I) 2 ltac:(lia)) as Dm.
  assert (Hbad : ~ In (qi_p I) (branch_bad_primes (qi_t I))).
  { assert (BIG : (23 < qi_p I)%Z).
    { clear - HI. assert (G : forallb (fun I => (23 <? qi_p I)%Z) p2_instances = true) by (lazy; reflexivity).
      rewrite forallb_forall in G. apply Z.ltb_lt, G, HI. }
    unfold branch_bad_primes. destruct (qi_t I <? 4); cbn [In]; lia. }
  assert (HR : forall r, r < qi_rf I + qi_rp I -> qi_t I <= length (nth r (map (map (f_of_Z (F := F))) (qi_rc I)) [])).
  { intros r Hr. rewrite (map_of_Z_row _ _ _ r (pc_rc_shape I HC)); lia. }
  split.
  - intros r Hr. apply (p2_full_active HP dbg (qi_t I) (qi_d I) (qi_rf I) (qi_rp I) _ _ _ Q r HQ Hov Hw Hbad Hd Hg). apply HR. lia.
  - intros lo m Hlo. apply (p2_trail HP dbg (qi_t I) (qi_d I) (qi_rf I) (qi_rp I) _ _ _ Q lo m HQ Hov Hw Hbad Hd Hg).
    intros r Hr. apply HR. lia.
Qed.

Theorem ps_shipped_active I : In I ps_instances -> forall F (Fo : FOps F), is_prime_field Fo (si_p I) -> forall dbg,
  exists Q, ps_instance_params dbg I = Ok Q /\
  (forall r, r < si_rf I + si_rp I ->
     active_words (si_t I) (ps_full_round dbg Q r) (si_t I + 1) /\ full_diffusion (si_t I) (ps_full_round dbg Q r)) /\
  (forall lo m, lo + 2 * m <= si_rf I + si_rp I -> trail_words (si_t I) (si_t I + 1) (ps_full_round dbg Q) lo m).
Proof.
  intros HI F Fo HP dbg. destruct (ProofKats.ps_all I HI) as [P [Hok [Hpr H]]].
  destruct (ps_cert_ok P Hok I Hpr H (Fo := Fo) HP dbg) as [Q [HQ _]]. exists Q. split; [exact HQ|].
  destruct (ps_cert_parts P Hok I H) as [Ep [H7 [Hb [HA [HC _]]]]]. rewrite (ps_instance_residues dbg I HC Hb) in HQ.
  destruct HA as [Hd He Hw Hp1 Hg Hov]. pose proof (p2_width_pos _ Hw) as W2.
  pose proof (map_of_Z_dims (F := F) _ _ _ (sc_mds_shape I HC)) as HD.
  destruct (ProofGrain4.ps_shipped_mds I HI F Fo HP) as [_ HM].
  assert (HR : forall r, r < si_rf I + si_rp I -> si_t I <= length (nth r (map (map (f_of_Z (F := F))) (si_rc I)) [])).
  { intros r Hr. rewrite (map_of_Z_row _ _ _ r (sc_rc_shape I HC)); lia. }
  split.
  - intros r Hr. apply (ps_full_active HP dbg (si_t I) (si_d I) (si_rf I) (si_rp I) _ _ Q r HQ Hov HD ltac:(lia) HM Hg). apply HR. lia.
  - intros lo m Hlo. apply (ps_trail HP dbg (si_t I) (si_d I) (si_rf I) (si_rp I) _ _ Q lo m HQ Hov HD ltac:(lia) HM Hg).
    intros r Hr. apply HR. lia.
Qed.

From Verif Require Import F13.
Lemma bad_prime_13 : ~ branch_number 4 (ext_matrix 4 : @mat F13) (p2_branch 4).
Proof.
  intros [H _]. specialize (H (l13 [0;1;0;2]%Z) eq_refl).
  assert (E : weight (l13 [0;1;0;2]%Z) + weight (mat_apply 4 4 (ext_matrix 4) (l13 [0;1;0;2]%Z)) = 4) by (vm_compute; reflexivity).
  rewrite E in H. change (p2_branch 4) with 5 in H.
  assert (N : l13 [0;1;0;2]%Z <> repeat f0 4); [|specialize (H N); lia].
  intros C. apply (f_equal (map (@f_to_Z _ F13_ops))) in C. vm_compute in C. discriminate C.
Qed.
