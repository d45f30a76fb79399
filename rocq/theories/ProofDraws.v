(** * ProofDraws: counting the invertible matrices, and the draws of Neptune's external matrix (C90) *)
From Verif Require Import Base Field Spec SpecNeptune SpecCount SpecSingular SpecDraws ProofCount LinAlg CyclicCert ModelRandom ModelNeptune ModelFields.
From Verif Require ProofPoseidon2 ProofMatInverse ProofNeptuneBij ProofNeptuneFin ProofNeptuneParams ProofSingular.
Local Open Scope nat_scope.

Section D.
  Context {F : Type} {Fo : FOps F} {p : Z} (HP : is_prime_field Fo p).
  Let HF := prime_field_is_field HP.
  Add Ring FRDraws : (ff_ring _ HF).

  (** ** linear combinations of rows *)
  Fixpoint comb (c : list F) (rows : list (list F)) (j : nat) : F :=
    match c, rows with a :: c', r :: rows' => fadd (fmul a (nth j r f0)) (comb c' rows' j) | _, _ => f0 end.
  Definition combl (n : nat) (rows : list (list F)) (c : list F) : list F := map (comb c rows) (seq 0 n).
  Definition indep (n : nat) (rows : list (list F)) : Prop :=
    forall c, length c = length rows -> (forall j, j < n -> comb c rows j = f0) -> forall i, nth i c f0 = f0.

  Lemma comb_sumn c rows j : length c = length rows -> comb c rows j = sumn (length rows) (fun i => fmul (nth i c f0) (nth j (nth i rows []) f0)).
  Proof.
    revert c. induction rows as [|r rows IH]; intros [|a c] H; try discriminate H; [reflexivity|].
    cbn [comb length]. rewrite (sumn_first HF). cbn [nth]. rewrite IH by (injection H; auto). reflexivity.
  Qed.
  Definition vop (f : F -> F -> F) (c d : list F) : list F := map (fun i => f (nth i c f0) (nth i d f0)) (seq 0 (length c)).
  Lemma comb_sub c d rows j : length c = length rows -> length d = length rows ->
    comb (vop fsub c d) rows j = fsub (comb c rows j) (comb d rows j).
  Proof.
    intros Hc Hd. rewrite !comb_sumn by (try assumption; unfold vop; rewrite map_length, seq_length; assumption).
    rewrite <- (sumn_sub HF). apply sumn_ext. intros i Hi. unfold vop. rewrite nth_map_seq by lia. ring.
  Qed.
  Lemma comb_scale a c rows j : length c = length rows -> comb (map (fmul a) c) rows j = fmul a (comb c rows j).
  Proof.
    revert c. induction rows as [|r rows IH]; intros [|b c] H; try discriminate H; [cbn; ring|].
    cbn [comb map]. rewrite IH by (injection H; auto). ring.
  Qed.

  Lemma combl_length n rows c : length (combl n rows c) = n.
  Proof. unfold combl. rewrite map_length, seq_length. reflexivity. Qed.
  Lemma combl_inj n rows c d : indep n rows -> length c = length rows -> length d = length rows -> combl n rows c = combl n rows d -> c = d.
  Proof.
    intros HI Hc Hd E. apply (list_ext f0); [congruence|]. intros i Hi.
    assert (Z : nth i (vop fsub c d) f0 = f0).
    { apply (HI (vop fsub c d)); [unfold vop; rewrite map_length, seq_length; exact Hc|]. intros j Hj. rewrite comb_sub by assumption.
      assert (Q : nth j (combl n rows c) f0 = nth j (combl n rows d) f0) by (rewrite E; reflexivity). unfold combl in Q. rewrite !nth_map_seq in Q by exact Hj. rewrite Q. ring. }
    unfold vop in Z. rewrite nth_map_seq in Z by exact Hi. apply (ProofSingular.sub_zero HP). exact Z.
  Qed.
  Lemma indep_cons n v rows : length v = n ->
    (indep n (v :: rows) <-> indep n rows /\ forall c, length c = length rows -> combl n rows c <> v).
  Proof.
    intros Hv. split.
    - intros H. split.
      + intros c Hc Z i. apply (H (f0 :: c)) with (i := S i); [cbn; lia|]. intros j Hj. cbn [comb]. rewrite (Z j Hj). ring.
      + intros c Hc E. apply (ff_one_neq_zero _ HF). assert (Q : nth 0 (fsub f0 f1 :: c) f0 = f0).
        { apply (H (fsub f0 f1 :: c)); [cbn; lia|]. intros j Hj. cbn [comb]. rewrite <- E at 1. unfold combl. rewrite nth_map_seq by exact Hj. ring. }
        cbn in Q. transitivity (fsub f0 (fsub f0 f1)); [ring|]. rewrite Q. ring.
    - intros [HI HN] [|a c] Hc Z; [discriminate Hc|]. injection Hc as Hc. destruct (feq_dec HF a f0) as [-> | Na].
      + intros [|i]; [reflexivity|]. cbn [nth]. apply HI; [exact Hc|]. intros j Hj. specialize (Z j Hj). cbn [comb] in Z. etransitivity; [|exact Z]. ring.
      + exfalso. apply (HN (map (fmul (fsub f0 (finv a))) c)); [rewrite map_length; exact Hc|].
        apply (list_ext f0); [rewrite combl_length; auto|]. intros j Hj. rewrite combl_length in Hj. unfold combl. rewrite nth_map_seq by exact Hj. rewrite comb_scale by exact Hc.
        specialize (Z j Hj). cbn [comb] in Z. pose proof (ff_inv _ HF a Na) as I.
        transitivity (fsub (fmul (fmul (finv a) a) (nth j v f0)) (fmul (finv a) (fadd (fmul a (nth j v f0)) (comb c rows j)))); [ring|]. rewrite Z, I. ring.
  Qed.

  (** ** the lists of independent rows *)
  Definition mem (S : list (list F)) (v : list F) : bool := existsb (list_eqb v) S.
  Lemma mem_ok S v : mem S v = true <-> In v S.
  Proof.
    unfold mem. rewrite existsb_exists. split.
    - intros [y [Hy E]]. apply (list_eqb_ok HP) in E. subst y. exact Hy.
    - intros H. exists v. split; [exact H|]. apply (list_eqb_ok HP). reflexivity.
  Qed.
  Definition span (n : nat) (rows : list (list F)) : list (list F) := map (combl n rows) (vectors p (length rows)).
  Definition outside (n : nat) (rows : list (list F)) : list (list F) := filter (fun v => negb (mem (span n rows) v)) (vectors p n).
  Fixpoint irows (n k : nat) : list (list (list F)) :=
    match k with 0 => [[]] | S k' => flat_map (fun rows => map (fun v => v :: rows) (outside n rows)) (irows n k') end.

  Lemma irows_in n k rows : In rows (irows n k) <-> length rows = k /\ (forall r, In r rows -> length r = n) /\ indep n rows.
  Proof.
    revert rows. induction k as [|k IH]; intros rows; cbn [irows].
    - split.
      + intros [<-|[]]. split; [reflexivity|]. split; [intros r []|]. intros [|a c] Hc _ i; [destruct i; reflexivity|discriminate Hc].
      + intros [H _]. destruct rows; [left; reflexivity|discriminate H].
    - rewrite in_flat_map. split.
      + intros [rs [Hrs H]]. apply IH in Hrs. destruct Hrs as (L & A & I). apply in_map_iff in H. destruct H as [v [<- Hv]].
        apply filter_In in Hv. destruct Hv as [Hv N]. apply (vectors_in HP) in Hv. apply Bool.negb_true_iff in N.
        split; [cbn; lia|]. split; [intros r [<-|Hr]; auto|]. apply indep_cons; [exact Hv|]. split; [exact I|]. intros c Hc E.
        assert (M : mem (span n rs) v = true); [|congruence]. apply mem_ok. unfold span. apply in_map_iff. exists c. split; [exact E|]. apply (vectors_in HP). exact Hc.
      + intros (L & A & I). destruct rows as [|v rs]; [discriminate L|]. injection L as L. assert (Hv : length v = n) by (apply A; left; reflexivity).
        apply indep_cons in I; [|exact Hv]. destruct I as [I N]. exists rs. split; [apply IH; split; [exact L|]; split; [intros r Hr; apply A; right; exact Hr|exact I]|].
        apply in_map_iff. exists v. split; [reflexivity|]. apply filter_In. split; [apply (vectors_in HP); exact Hv|]. apply Bool.negb_true_iff.
        destruct (mem (span n rs) v) eqn:M; [|reflexivity]. apply mem_ok in M. unfold span in M. apply in_map_iff in M. destruct M as [c [E Hc]].
        apply (vectors_in HP) in Hc. exfalso. exact (N c Hc E).
  Qed.
  Lemma irows_nodup n k : NoDup (irows n k).
  Proof.
    induction k as [|k IH]; cbn [irows]; [constructor; [intros []|constructor]|]. apply flat_nodup; [exact IH| |].
    - intros rs _. apply map_nodup; [apply NoDup_filter, (vectors_nodup HP)|]. intros a b _ _ E. injection E; auto.
    - intros a b y _ _ Ha Hb. apply in_map_iff in Ha, Hb. destruct Ha as [u [<- _]], Hb as [w [E _]]. injection E; auto.
  Qed.
  Lemma remove_count (S V : list (list F)) : NoDup S -> NoDup V -> incl S V ->
    Z.of_nat (length (filter (fun v => negb (mem S v)) V)) = (Z.of_nat (length V) - Z.of_nat (length S))%Z.
  Proof.
    intros NS NV HI.
    assert (E : length (filter (mem S) V) = length S).
    { apply Nat.le_antisymm.
      - apply NoDup_incl_length; [apply NoDup_filter; exact NV|]. intros v Hv. apply filter_In in Hv. apply mem_ok, Hv.
      - apply NoDup_incl_length; [exact NS|]. intros v Hv. apply filter_In. split; [apply HI; exact Hv|apply mem_ok; exact Hv]. }
    assert (T : length (filter (mem S) V) + length (filter (fun v => negb (mem S v)) V) = length V).
    { clear. induction V as [|v V IH]; [reflexivity|]. cbn [filter]. destruct (mem S v); cbn [negb length]; lia. }
    lia.
  Qed.
  Lemma outside_count n rows : indep n rows ->
    Z.of_nat (length (outside n rows)) = (p ^ Z.of_nat n - p ^ Z.of_nat (length rows))%Z.
  Proof.
    intros HI. unfold outside. rewrite remove_count.
    - rewrite (vectors_length HP). unfold span. rewrite map_length, (vectors_length HP). reflexivity.
    - unfold span. apply map_nodup; [apply (vectors_nodup HP)|]. intros c d Hc Hd E. apply (vectors_in HP) in Hc, Hd. apply (combl_inj n rows); assumption.
    - apply (vectors_nodup HP).
    - intros v Hv. unfold span in Hv. apply in_map_iff in Hv. destruct Hv as [c [<- _]]. apply (vectors_in HP), combl_length.
  Qed.
  Lemma flat_count {A B} (f : A -> list B) l (N : Z) : (forall a, In a l -> Z.of_nat (length (f a)) = N) -> Z.of_nat (length (flat_map f l)) = (Z.of_nat (length l) * N)%Z.
  Proof.
    induction l as [|a l IH]; intros H; [reflexivity|]. cbn [flat_map length]. rewrite app_length, Nat2Z.inj_add, (H a (or_introl eq_refl)), IH by (intros b Hb; apply H; right; exact Hb). lia.
  Qed.
  Lemma prod_snoc (f : nat -> Z) k : fold_right Z.mul 1%Z (map f (seq 0 (S k))) = (fold_right Z.mul 1 (map f (seq 0 k)) * f k)%Z.
  Proof.
    rewrite seq_S, map_app, fold_right_app. cbn [map fold_right Nat.add]. rewrite Z.mul_1_r. generalize (map f (seq 0 k)) (f k). clear.
    intros l x. induction l as [|a l IH]; cbn [fold_right]; [lia|]. rewrite IH. lia.
  Qed.
  Lemma irows_count n k : Z.of_nat (length (irows n k)) = fold_right Z.mul 1%Z (map (fun i => (p ^ Z.of_nat n - p ^ Z.of_nat i)%Z) (seq 0 k)).
  Proof.
    induction k as [|k IH]; [reflexivity|]. rewrite (prod_snoc (fun i => (p ^ Z.of_nat n - p ^ Z.of_nat i)%Z)), <- IH. cbn [irows]. apply flat_count.
    intros rows H. apply irows_in in H. destruct H as (L & _ & I). rewrite map_length, (outside_count n rows I), L. reflexivity.
  Qed.

  (** ** independent rows = invertible *)
  Lemma indep_invertible n (m : list (list F)) : dims n n m -> (indep n m <-> invertible n (entry m)).
  Proof.
    intros [L D]. assert (T : indep n m <-> nonsingular n (fun i j => entry m j i)).
    { split.
      - intros H x Hx i Hi. specialize (H (map x (seq 0 n))). rewrite <- (nth_map_seq x f0 n i Hi). apply H; [rewrite map_length, seq_length; auto|].
        intros j Hj. rewrite comb_sumn by (rewrite map_length, seq_length; auto). rewrite L. etransitivity; [|apply (Hx j Hj)]. apply sumn_ext. intros k Hk.
        rewrite nth_map_seq by exact Hk. unfold entry. ring.
      - intros H c Hc Z i. destruct (Nat.lt_ge_cases i n) as [Hi|Hi]; [|apply nth_overflow; lia].
        apply (H (fun i => nth i c f0)); [|exact Hi]. intros j Hj. etransitivity; [|exact (Z j Hj)]. rewrite comb_sumn by exact Hc. rewrite L. apply sumn_ext. intros k Hk. unfold entry. cbv beta. ring. }
    rewrite T. split; intros H.
    - apply (nonsingular_invertible HF). exact (nonsingular_transpose HF n (fun i j => entry m j i) H).
    - apply (nonsingular_transpose HF n (entry m)). apply (invertible_nonsingular HF). exact H.
  Qed.
  Lemma dims_rows n (m : list (list F)) : dims n n m <-> length m = n /\ forall r, In r m -> length r = n.
  Proof.
    split; intros [L D]; (split; [exact L|]).
    - intros r Hr. destruct (In_nth m r [] Hr) as [i [Hi <-]]. apply D. lia.
    - intros i Hi. apply D, nth_In. lia.
  Qed.
  Theorem invertible_count n : exists L : list (list (list F)), lists_invertible n L /\ Z.of_nat (length L) = invertible_number p n.
  Proof.
    exists (irows n n). split; [|apply irows_count]. split; [apply irows_nodup|]. intros m. rewrite irows_in. split.
    - intros (A & B & C). assert (D : dims n n m) by (apply dims_rows; auto). split; [exact D|]. apply indep_invertible; assumption.
    - intros [D I]. apply indep_invertible in I; [|exact D]. apply dims_rows in D. destruct D. auto.
  Qed.
  Fixpoint allrows (n k : nat) : list (list (list F)) :=
    match k with 0 => [[]] | S k' => flat_map (fun rows => map (fun v => v :: rows) (vectors p n)) (allrows n k') end.
  Theorem matrix_count n : exists L : list (list (list F)), NoDup L /\ (forall m, In m L <-> dims n n m) /\ Z.of_nat (length L) = (p ^ Z.of_nat (n * n))%Z.
  Proof.
    assert (A : forall k, NoDup (allrows n k) /\ (forall m, In m (allrows n k) <-> length m = k /\ forall r, In r m -> length r = n) /\ Z.of_nat (length (allrows n k)) = (p ^ Z.of_nat (n * k))%Z).
    { induction k as [|k (N & I & C)]; cbn [allrows].
      - split; [constructor; [intros []|constructor]|]. split; [|rewrite Nat.mul_0_r; reflexivity]. intros m. split.
        + intros [<-|[]]. split; [reflexivity|intros r []].
        + intros [H _]. destruct m; [left; reflexivity|discriminate H].
      - split; [|split].
        + apply flat_nodup; [exact N| |].
          * intros rs _. apply map_nodup; [apply (vectors_nodup HP)|]. intros a b _ _ E. injection E; auto.
          * intros a b y _ _ Ha Hb. apply in_map_iff in Ha, Hb. destruct Ha as [u [<- _]], Hb as [w [E _]]. injection E; auto.
        + intros m. rewrite in_flat_map. split.
          * intros [rs [H K]]. apply I in H. apply in_map_iff in K. destruct K as [v [<- Hv]]. apply (vectors_in HP) in Hv. destruct H as [L R]. split; [cbn; lia|]. intros r [<-|Hr]; auto.
          * intros [L R]. destruct m as [|v rs]; [discriminate L|]. injection L as L. exists rs. split; [apply I; split; [exact L|intros r Hr; apply R; right; exact Hr]|].
            apply in_map_iff. exists v. split; [reflexivity|]. apply (vectors_in HP), R. left. reflexivity.
        + rewrite (flat_count _ _ (p ^ Z.of_nat n)%Z) by (intros a _; rewrite map_length; apply (vectors_length HP)). rewrite C.
          pose proof (pf_p_ge_2 HP). rewrite <- Z.pow_add_r by lia. f_equal. lia. }
    exists (allrows n n). destruct (A n) as (N & I & C). split; [exact N|]. split; [|exact C]. intros m. rewrite I. symmetry. apply dims_rows.
  Qed.
End D.

Section Code.
  Context {F : Type} {Fo : FOps F} {p : Z} (HP : is_prime_field Fo p).
  Let HF := prime_field_is_field HP.
  Add Ring FRDraws2 : (ff_ring _ HF).

  Lemma sumn_pairs n (f : nat -> F) : sumn (2 * n) f = fadd (sumn n (fun i => f (2 * i))) (sumn n (fun i => f (2 * i + 1))).
  Proof.
    induction n as [|n IH]; [cbn; ring|]. replace (2 * S n) with (S (S (2 * n))) by lia. cbn [sumn]. rewrite IH. replace (2 * n + 1) with (S (2 * n)) by lia. ring.
  Qed.
  Lemma interleaved n (E O : @mat F) :
    nonsingular (2 * n) (fun i j => if (i mod 2 =? 1) && (j mod 2 =? 1) then O (i / 2) (j / 2) else if (i mod 2 =? 0) && (j mod 2 =? 0) then E (i / 2) (j / 2) else f0) <->
    nonsingular n E /\ nonsingular n O.
  Proof.
    assert (M0 : forall k, (2 * k) mod 2 = 0 /\ (2 * k) / 2 = k) by (intros k; lia).
    assert (M1 : forall k, (2 * k + 1) mod 2 = 1 /\ (2 * k + 1) / 2 = k) by (intros k; lia).
    set (A := fun i j => _).
    assert (R0 : forall a x, sumn (2 * n) (fun j => fmul (A (2 * a) j) (x j)) = sumn n (fun b => fmul (E a b) (x (2 * b)))).
    { intros a x. rewrite sumn_pairs. rewrite (sumn_zero HF n (fun i => fmul (A (2 * a) (2 * i + 1)) (x (2 * i + 1)))).
      - transitivity (sumn n (fun i => fmul (A (2 * a) (2 * i)) (x (2 * i)))); [ring|]. apply sumn_ext. intros b Hb. unfold A.
        destruct (M0 a) as [-> ->], (M0 b) as [-> ->]. reflexivity.
      - intros b Hb. unfold A. destruct (M0 a) as [-> ->], (M1 b) as [-> ->]. cbn. ring. }
    assert (R1 : forall a x, sumn (2 * n) (fun j => fmul (A (2 * a + 1) j) (x j)) = sumn n (fun b => fmul (O a b) (x (2 * b + 1)))).
    { intros a x. rewrite sumn_pairs. rewrite (sumn_zero HF n (fun i => fmul (A (2 * a + 1) (2 * i)) (x (2 * i)))).
      - transitivity (sumn n (fun i => fmul (A (2 * a + 1) (2 * i + 1)) (x (2 * i + 1)))); [ring|]. apply sumn_ext. intros b Hb. unfold A.
        destruct (M1 a) as [-> ->], (M1 b) as [-> ->]. reflexivity.
      - intros b Hb. unfold A. destruct (M1 a) as [-> ->], (M0 b) as [-> ->]. cbn. ring. }
    split.
    - intros H. split; intros x Hx j Hj.
      + specialize (H (fun k => if k mod 2 =? 0 then x (k / 2) else f0)). cbv beta in H. assert (G := H) . specialize (G ltac:(
          intros i Hi; destruct (Nat.eq_dec (i mod 2) 0) as [e|e];
          [replace i with (2 * (i / 2)) by lia; rewrite R0; etransitivity; [|exact (Hx (i / 2) ltac:(lia))]; apply sumn_ext; intros b Hb; destruct (M0 b) as [-> ->]; reflexivity
          |replace i with (2 * (i / 2) + 1) by lia; rewrite R1; apply (sumn_zero HF); intros b Hb; destruct (M1 b) as [-> ->]; cbn; ring])).
        specialize (G (2 * j) ltac:(lia)). destruct (M0 j) as [E1 E2]. rewrite E1, E2 in G. exact G.
      + specialize (H (fun k => if k mod 2 =? 1 then x (k / 2) else f0)). cbv beta in H. assert (G := H) . specialize (G ltac:(
          intros i Hi; destruct (Nat.eq_dec (i mod 2) 0) as [e|e];
          [replace i with (2 * (i / 2)) by lia; rewrite R0; apply (sumn_zero HF); intros b Hb; destruct (M0 b) as [-> ->]; cbn; ring
          |replace i with (2 * (i / 2) + 1) by lia; rewrite R1; etransitivity; [|exact (Hx (i / 2) ltac:(lia))]; apply sumn_ext; intros b Hb; destruct (M1 b) as [-> ->]; reflexivity])).
        specialize (G (2 * j + 1) ltac:(lia)). destruct (M1 j) as [E1 E2]. rewrite E1, E2 in G. exact G.
    - intros [HE HO] x Hx j Hj. destruct (Nat.eq_dec (j mod 2) 0) as [e|e].
      + replace j with (2 * (j / 2)) by lia. apply (HE (fun k => x (2 * k))); [|lia]. intros i Hi. etransitivity; [|exact (Hx (2 * i) ltac:(lia))]. symmetry. apply R0.
      + replace j with (2 * (j / 2) + 1) by lia. apply (HO (fun k => x (2 * k + 1))); [|lia]. intros i Hi. etransitivity; [|exact (Hx (2 * i + 1) ltac:(lia))]. symmetry. apply R1.
  Qed.

  Lemma drawn_dims (rng : nat -> F) n a : dims n n (drawn rng n a).
  Proof.
    unfold drawn. split; [rewrite map_length, seq_length; reflexivity|]. intros i Hi.
    rewrite (nth_map_seq (fun i => map (fun j => rng (a + i * n + j)) (seq 0 n)) [] n i Hi). rewrite map_length, seq_length. reflexivity.
  Qed.
  Lemma drawn_entry (rng : nat -> F) n a i j : i < n -> j < n -> entry (drawn rng n a) i j = rng (a + i * n + j).
  Proof.
    intros Hi Hj. unfold entry, drawn. rewrite (nth_map_seq (fun i => map (fun j => rng (a + i * n + j)) (seq 0 n)) [] n i Hi).
    rewrite (nth_map_seq (fun j => rng (a + i * n + j)) f0 n j Hj). reflexivity.
  Qed.

  Theorem ext_draws dbg fuel rng t d rf rp (P : NeptuneParams F) L :
    np_new dbg fuel rng t d rf rp = Ok P -> (N.of_nat rf + N.of_nat rp < usize_mod)%N -> t <> 4 -> t <> 8 -> lists_invertible (t / 2) L ->
    (invertible t (entry (np_m_e P)) <->
     In (drawn rng (t / 2) ((rf + rp) * t)) L /\ In (drawn rng (t / 2) ((rf + rp) * t + t / 2 * (t / 2))) L).
  Proof.
    intros H Hov H4 H8 [_ HL]. destruct (ProofNeptuneFin.np_new_contents HF _ _ _ _ _ _ _ _ H Hov) as [(_ & _ & Hev) (_ & _ & _ & _ & _ & _ & _ & [_ Em] & _)].
    rewrite !HL. set (n := t / 2) in *. assert (Ht : t = 2 * n) by (unfold n; lia).
    set (e := drawn rng n ((rf + rp) * t)). set (o := drawn rng n ((rf + rp) * t + n * n)).
    assert (Q : invertible t (entry (np_m_e P)) <-> nonsingular n (entry e) /\ nonsingular n (entry o)).
    { rewrite <- (interleaved n (entry e) (entry o)), <- Ht.
      assert (W : mat_eq t (entry (np_m_e P)) (fun i j => if (i mod 2 =? 1) && (j mod 2 =? 1) then entry o (i / 2) (j / 2) else if (i mod 2 =? 0) && (j mod 2 =? 0) then entry e (i / 2) (j / 2) else f0)).
      { intros i j Hi Hj. rewrite (Em i j Hi Hj). unfold np_ext_entry. unfold e, o. rewrite !drawn_entry by lia.
        unfold np_odd_block, np_even_block. fold n. destruct (Nat.eqb_spec t 4); [contradiction|]. destruct (Nat.eqb_spec t 8); [contradiction|]. reflexivity. }
      split; intros K.
      - apply (ProofMatInverse.nonsingular_ext t _ _ W). apply (invertible_nonsingular HF). exact K.
      - apply (nonsingular_invertible HF). apply (ProofMatInverse.nonsingular_ext t _ _ (fun i j Hi Hj => eq_sym (W i j Hi Hj)) K). }
    rewrite Q. split.
    - intros [A B]. split; (split; [apply drawn_dims|apply (nonsingular_invertible HF); assumption]).
    - intros [[_ A] [_ B]]. split; apply (invertible_nonsingular HF); assumption.
  Qed.

  Lemma entry_ext n (m m' : list (list F)) : dims n n m -> dims n n m' -> (forall i j, i < n -> j < n -> entry m i j = entry m' i j) -> m = m'.
  Proof.
    intros [L D] [L' D'] E. apply (nth_ext _ _ [] []); [congruence|]. intros i Hi. apply (nth_ext _ _ f0 f0); [rewrite D, D' by lia; reflexivity|].
    intros j Hj. rewrite D in Hj by lia. apply E; lia.
  Qed.

  Lemma mu_returns_from fuel t (rng : nat -> F) pos : 1 <= fuel -> (forall q, pos <= q -> rng q <> f0) -> exists r, np_instantiate_mu fuel t rng pos = Ok r.
  Proof.
    intros Hf. revert pos. induction t as [|t IH]; intros pos Hr; cbn [np_instantiate_mu]; [eexists; reflexivity|].
    destruct (random_scalar_without_0 fuel rng pos) as [[a p1]| |] eqn:E; cbn [bind]; [|exfalso; exact (ProofNeptuneParams.without_0_not_panic _ _ _ E)|].
    - destruct (IH p1) as [[l p2] ->]; [|cbn [bind]; eexists; reflexivity]. apply (ProofNeptuneParams.without_0_ok HF) in E. destruct E as [k [Hk [_ [Nz [Ea Ep]]]]]. intros q Hq. apply Hr. lia.
    - exfalso. rewrite (ProofNeptuneParams.without_0_fuel HF) in E. apply (Hr pos (le_n _)). rewrite <- (Nat.add_0_r pos). apply E. exact Hf.
  Qed.
  Lemma np_new_returns_from dbg fuel rng t d rf rp : ProofNeptuneParams.np_args t d rf -> (N.of_nat rf + N.of_nat rp < usize_mod)%N -> 1 <= fuel ->
    (forall q, (rf + rp) * t + np_mat_draws t <= q -> rng q <> f0) -> exists P : NeptuneParams F, np_new dbg fuel rng t d rf rp = Ok P.
  Proof.
    intros [Hd [Hr Ht]] Hov Hf HR. unfold np_new. rewrite (proj2 (ProofPoseidon2.degree_bool d) Hd), Hr, Ht. cbn [Nat.eqb assert bind].
    rewrite uadd_ok by exact Hov. cbn [bind]. unfold np_instantiate_rc. rewrite ProofNeptuneParams.random_rows_ok. rewrite Nat.add_0_l.
    destruct (ProofNeptuneParams.external_matrix_ok t (rf + rp) rng Ht) as [p1 E2].
    pose proof (ProofNeptuneParams.ext_pos_eq _ _ _ _ _ Ht E2) as Ep. rewrite E2. cbn [bind]. subst p1.
    destruct (mu_returns_from fuel t rng _ Hf HR) as [[mu p2] E]. rewrite E. cbn [bind]. eexists. reflexivity.
  Qed.

  (** all blocks and diagonals can be drawn together *)
  Theorem np_every_draw dbg fuel t d rf rp (e o : list (list F)) (m : list F) : (N.of_nat rf + N.of_nat rp < usize_mod)%N -> 1 <= fuel ->
    In d [3; 5; 7] -> rf mod 2 = 0 -> t mod 2 = 0 -> t <> 4 -> t <> 8 -> dims (t / 2) (t / 2) e -> dims (t / 2) (t / 2) o -> nonzero_diagonal t m ->
    exists rng P, np_new dbg fuel rng t d rf rp = Ok P /\ map (fun a => fadd a f1) (np_mu P) = m /\
      drawn rng (t / 2) ((rf + rp) * t) = e /\ drawn rng (t / 2) ((rf + rp) * t + t / 2 * (t / 2)) = o.
  Proof.
    intros Hov Hf Hd He Hev H4 H8 De Do [Lm Hm]. set (n := t / 2) in *. set (b := (rf + rp) * t).
    assert (Md : np_mat_draws t = 2 * (n * n)).
    { unfold np_mat_draws. destruct (Nat.eqb_spec t 4); [contradiction|]. destruct (Nat.eqb_spec t 8); [contradiction|]. reflexivity. }
    set (off := b + 2 * (n * n)).
    set (rng := fun k => if k <? b then f1 else if k <? b + n * n then entry e ((k - b) / n) ((k - b) mod n) else if k <? off then entry o ((k - b - n * n) / n) ((k - b - n * n) mod n) else nth (k - off) (m ++ [f1]) f1).
    assert (Rhi : forall k, off <= k -> rng k = nth (k - off) (m ++ [f1]) f1).
    { intros k Hk. unfold rng. destruct (Nat.ltb_spec k b); [unfold off in *; lia|]. destruct (Nat.ltb_spec k (b + n * n)); [unfold off in *; lia|]. destruct (Nat.ltb_spec k off); [lia|reflexivity]. }
    assert (R : forall k, off <= k -> rng k <> f0).
    { intros k Hk. rewrite Rhi by exact Hk. destruct (Nat.lt_ge_cases (k - off) t) as [A|A].
      - rewrite app_nth1 by lia. rewrite (nth_indep _ f1 f0) by lia. apply Hm, A.
      - rewrite app_nth2 by lia. destruct (k - off - length m) as [|[|?]]; apply (ff_one_neq_zero _ HF). }
    assert (Re : drawn rng n b = e).
    { apply (entry_ext n); [apply drawn_dims|exact De|]. intros i j Hi Hj. rewrite drawn_entry by assumption. unfold rng.
      destruct (Nat.ltb_spec (b + i * n + j) b); [lia|]. assert (i * n + j < n * n) by nia. destruct (Nat.ltb_spec (b + i * n + j) (b + n * n)); [|lia].
      replace (b + i * n + j - b) with (j + i * n) by lia. rewrite Nat.div_add, Nat.div_small, Nat.mod_add, Nat.mod_small by lia. reflexivity. }
    assert (Ro : drawn rng n (b + n * n) = o).
    { apply (entry_ext n); [apply drawn_dims|exact Do|]. intros i j Hi Hj. rewrite drawn_entry by assumption. unfold rng.
      destruct (Nat.ltb_spec (b + n * n + i * n + j) b); [lia|]. assert (i * n + j < n * n) by nia. destruct (Nat.ltb_spec (b + n * n + i * n + j) (b + n * n)); [lia|].
      destruct (Nat.ltb_spec (b + n * n + i * n + j) off); [|unfold off in *; lia].
      replace (b + n * n + i * n + j - b - n * n) with (j + i * n) by lia. rewrite Nat.div_add, Nat.div_small, Nat.mod_add, Nat.mod_small by lia. reflexivity. }
    exists rng.
    assert (X : exists P, np_new dbg fuel rng t d rf rp = Ok P /\ map (fun a => fadd a f1) (np_mu P) = m).
    { destruct (np_new_returns_from dbg fuel rng t d rf rp) as [P H]; [repeat split; assumption|exact Hov|exact Hf|rewrite Md; exact R|].
      exists P. split; [exact H|].
      destruct (ProofNeptuneParams.np_new_draws HF dbg fuel rng t d rf rp P H Hov) as [q [Hq [L [E _]]]]. rewrite Md in Hq, E. fold b in Hq, E. fold off in Hq, E.
      rewrite (ProofCount.filter_every (fun k => negb (feqb (rng k) f0))) in E
        by (intros k Hk; apply in_seq in Hk; rewrite (ProofSingular.feqb_false HP _ _ (R k (proj1 Hk))); reflexivity).
      rewrite E in L. rewrite map_length, seq_length in L. rewrite E, map_map. rewrite L. apply (nth_ext _ _ f1 f1); rewrite map_length, seq_length; [symmetry; exact Lm|].
      intros i Hi. rewrite (nth_indep _ f1 (fadd (fsub (rng 0) f1) f1)) by (rewrite map_length, seq_length; exact Hi).
      rewrite (map_nth (fun k => fadd (fsub (rng k) f1) f1) _ 0). rewrite seq_nth by exact Hi. rewrite Rhi by lia. replace (off + i - off) with i by lia.
      rewrite app_nth1 by lia. ring. }
    destruct X as [P [H E]]. exists P. auto.
  Qed.
End Code.

(** ** how large the fraction of invertible matrices is *)
Section Fraction.
Local Open Scope Z_scope.
Let G (p Q : Z) (k : nat) : Z := fold_right Z.mul 1 (map (fun i => Q - p ^ Z.of_nat i) (seq 0 k)).
Lemma G_S : forall p Q k, G p Q (S k) = G p Q k * (Q - p ^ Z.of_nat k).
Proof.
  intros p Q k. unfold G. rewrite seq_S, map_app, Nat.add_0_l. cbn [map]. generalize (map (fun i => Q - p ^ Z.of_nat i) (seq 0 k)) as l.
  induction l as [|a l IH]; cbn [app fold_right]; [ring|]. rewrite IH. ring.
Qed.
Lemma G_bounds : forall p n k, 2 <= p -> (k <= n)%nat ->
  0 <= G p (p ^ Z.of_nat n) k <= (p ^ Z.of_nat n) ^ Z.of_nat k /\
  (p ^ Z.of_nat n) ^ Z.of_nat k * ((p - 1) * p ^ Z.of_nat n - p ^ Z.of_nat k + 1) <= (p - 1) * p ^ Z.of_nat n * G p (p ^ Z.of_nat n) k.
Proof.
  intros p n k Hp. set (Q := p ^ Z.of_nat n). assert (HQ : 0 < Q) by (apply Z.pow_pos_nonneg; lia). induction k as [|k IH]; intros Hk.
  - change (G p Q 0) with 1. rewrite !Z.pow_0_r. split; [lia|]. ring_simplify. lia.
  - destruct (IH ltac:(lia)) as [[A0 A1] A2]. rewrite G_S. replace (Z.of_nat (S k)) with (Z.succ (Z.of_nat k)) by lia. rewrite !Z.pow_succ_r by lia.
    assert (Hr : p ^ Z.of_nat k <= Q) by (apply Z.pow_le_mono_r; lia). assert (H1 : 0 < p ^ Z.of_nat k) by (apply Z.pow_pos_nonneg; lia).
    assert (HK : 0 < Q ^ Z.of_nat k) by (apply Z.pow_pos_nonneg; lia).
    set (g := G p Q k) in *. set (r := p ^ Z.of_nat k) in *. set (K := Q ^ Z.of_nat k) in *. clearbody g r K Q. clear IH Hk. split; [split; nia|].
    transitivity (K * ((p - 1) * Q - r + 1) * (Q - r)).
    + replace (Q * K * ((p - 1) * Q - p * r + 1)) with (K * (Q * ((p - 1) * Q - p * r + 1))) by ring.
      rewrite <- Z.mul_assoc. apply Z.mul_le_mono_nonneg_l; [lia|]. assert (0 <= r * r - r) by nia.
      enough (((p - 1) * Q - r + 1) * (Q - r) - Q * ((p - 1) * Q - p * r + 1) = r * r - r) by lia. ring.
    + replace ((p - 1) * Q * (g * (Q - r))) with (((p - 1) * Q * g) * (Q - r)) by ring. apply Z.mul_le_mono_nonneg_r; lia.
Qed.
Theorem fraction : forall p n, 2 <= p -> (1 <= n)%nat ->
  p * invertible_number p n <= (p - 1) * p ^ Z.of_nat (n * n) /\ (p - 2) * p ^ Z.of_nat (n * n) < (p - 1) * invertible_number p n.
Proof.
  intros p n Hp Hn. change (invertible_number p n) with (G p (p ^ Z.of_nat n) n).
  rewrite Nat2Z.inj_mul, Z.pow_mul_r by lia. assert (HQ : 0 < p ^ Z.of_nat n) by (apply Z.pow_pos_nonneg; lia). split.
  - destruct n as [|n]; [lia|]. destruct (G_bounds p (S n) n Hp ltac:(lia)) as [[A0 A1] _]. rewrite G_S.
    replace (Z.of_nat (S n)) with (Z.succ (Z.of_nat n)) in * by lia. rewrite (Z.pow_succ_r (p ^ Z.succ (Z.of_nat n))) by lia.
    set (Q := p ^ Z.succ (Z.of_nat n)) in *. assert (EQ : Q = p * p ^ Z.of_nat n) by (unfold Q; rewrite Z.pow_succ_r by lia; reflexivity).
    set (g := G p Q n) in *. set (r := p ^ Z.of_nat n) in *. set (K := Q ^ Z.of_nat n) in *. clearbody g K r Q.
    transitivity (g * ((p - 1) * Q)); [nia|]. transitivity (K * ((p - 1) * Q)); [apply Z.mul_le_mono_nonneg_r; nia|nia].
  - destruct (G_bounds p n n Hp (le_n _)) as [_ A]. set (Q := p ^ Z.of_nat n) in *. set (K := Q ^ Z.of_nat n) in *. assert (HK : 0 < K) by (apply Z.pow_pos_nonneg; lia).
    set (g := G p Q n) in *. clearbody g K Q. nia.
Qed.
End Fraction.

Theorem bijective_draws {F} (Fo : FOps F) p (HP : is_prime_field Fo p) dbg fuel rng t d rf rp (P : NeptuneParams F) L S :
  np_new dbg fuel rng t d rf rp = Ok P -> (N.of_nat rf + N.of_nat rp < usize_mod)%N -> 2 <= t -> t <> 4 -> t <> 8 ->
  lists_invertible (t / 2) L -> lists_singular t S ->
  (bijective_on t (np_permutation dbg P) <->
   (In (drawn rng (t / 2) ((rf + rp) * t)) L /\ In (drawn rng (t / 2) ((rf + rp) * t + t / 2 * (t / 2))) L) /\ (rf = 0 \/ p <> 5%Z) /\
   (rp = 0 \/ (~ In (map (fun a => fadd a f1) (np_mu P)) S /\ Z.gcd (Z.of_nat d) (p - 1) = 1%Z))).
Proof.
  intros H Hov Ht H4 H8 HL HS. rewrite (ProofSingular.np_bijective_draws HP dbg fuel rng t d rf rp P S H Hov Ht HS).
  rewrite (ext_draws HP dbg fuel rng t d rf rp P L H Hov H4 H8 HL). reflexivity.
Qed.
Theorem shipped_fraction : Forall (fun i => ni_t i = 4 \/ ni_t i = 8 \/
  (let n := (ni_t i / 2)%nat in
   ni_p i * invertible_number (ni_p i) n <= (ni_p i - 1) * ni_p i ^ Z.of_nat (n * n) /\
   (ni_p i - 2) * ni_p i ^ Z.of_nat (n * n) < (ni_p i - 1) * invertible_number (ni_p i) n)%Z) np_instances.
Proof.
  assert (H : Forall (fun i => (2 <= ni_p i)%Z /\ 1 <= ni_t i / 2) np_instances).
  { unfold np_instances. repeat (apply Forall_cons || apply Forall_nil); cbn [ni_t ni_p np_inst]; (split; [vm_compute; discriminate|vm_compute; lia]). }
  eapply Forall_impl; [|exact H]. intros i [H1 H2]. right. right. apply fraction; assumption.
Qed.
