(** * ProofUnbiased: the random parameters of Neptune are uniformly distributed *)
From Coq Require Import ZifyNat Zify.
From Verif Require Import Base Field Spec SpecNeptune SpecCount SpecSingular SpecUnbiased ProofCount LinAlg LoopLemmas MatLoops ModelRandom ModelNeptune ModelGmimc ProofSingular.
From Verif Require ProofNeptuneParams ProofGmimc ProofPoseidon2.
Local Open Scope nat_scope.

Section U.
  Context {F : Type} {Fo : FOps F} {p : Z} (HP : is_prime_field Fo p).
  Let HF := prime_field_is_field HP.

  (** the first t non-zero elements, and what comes after them *)
  Fixpoint take_nz (l : list F) (t : nat) : option (list F * list F) :=
    match t with
    | O => Some ([], l)
    | S t' =>
      match l with
      | [] => None
      | a :: l' => if feqb a f0 then take_nz l' t else match take_nz l' t' with Some (m, r) => Some (a :: m, r) | None => None end
      end
    end.
  Lemma take_0 l : take_nz l 0 = Some ([], l).
  Proof. destruct l; reflexivity. Qed.
  Definition fits (t : nat) (m : list F) (q : list F -> bool) (l : list F) : bool :=
    match take_nz l t with Some (m', r) => list_eqb m m' && q r | None => false end.
  Lemma number_0 (Q : list F -> bool) : number p 0 Q = if Q [] then 1%Z else 0%Z.
  Proof. unfold number. cbn. destruct (Q []); reflexivity. Qed.
  Lemma number_all n : number (F := F) p n (fun _ => true) = (p ^ Z.of_nat n)%Z.
  Proof. apply (vectors_spec HP). Qed.
  Lemma list_eqb_refl (l : list F) : list_eqb l l = true.
  Proof. now apply (list_eqb_ok HP). Qed.
  Lemma fits_count extra (q : list F -> bool) :
    (forall k, number p k q = if extra <=? k then (p ^ Z.of_nat (k - extra))%Z else 0%Z) ->
    forall k t m, nonzero_diagonal t m -> number p k (fits t m q) = draws_number p extra k t.
  Proof.
    intros Hq. induction k as [|k IH]; intros t m [Lm Nm].
    - destruct t as [|t]; [|rewrite number_0; reflexivity]. cbn [draws_number]. rewrite <- Hq. apply number_ext. intros x. unfold fits. rewrite take_0.
      destruct m; [|discriminate]. reflexivity.
    - destruct t as [|t].
      + destruct m; [|discriminate]. cbn [draws_number]. rewrite <- Hq. apply number_ext. intros x. unfold fits. rewrite take_0. reflexivity.
      + destruct m as [|b m]; [discriminate|]. assert (Nb : b <> f0) by (apply (Nm 0); lia).
        assert (Dm : nonzero_diagonal t m). { split; [injection Lm; auto|]. intros i Hi. apply (Nm (S i)). lia. }
        cbn [draws_number]. rewrite number_S. rewrite <- (IH (S t) (b :: m)) by (split; assumption). rewrite <- (IH t m) by exact Dm.
        transitivity (fsum (p := p) (fun a : F => (if feqb a f0 then number p k (fits (S t) (b :: m) q) else 0) + (if feqb a b then number p k (fits t m q) else 0))%Z).
        * apply fsum_ext. intros a. destruct (fdec HP a f0) as [->|Na].
          -- rewrite (feqb_refl HP). rewrite (feqb_false HP f0 b) by congruence. rewrite Z.add_0_r. apply number_ext. intros x. unfold fits. cbn [take_nz]. rewrite (feqb_refl HP). reflexivity.
          -- rewrite (feqb_false HP _ _ Na). cbn [Z.add]. destruct (fdec HP a b) as [->|Nab].
             ++ rewrite (feqb_refl HP). apply number_ext. intros x. unfold fits. cbn [take_nz]. rewrite (feqb_false HP _ _ Na). destruct (take_nz x t) as [[m' r]|]; [|reflexivity].
                cbn [list_eqb]. rewrite (feqb_refl HP). reflexivity.
             ++ rewrite (feqb_false HP _ _ Nab). rewrite <- (number_false (F := F) (p := p) k). apply number_ext. intros x. unfold fits. cbn [take_nz]. rewrite (feqb_false HP _ _ Na). destruct (take_nz x t) as [[m' r]|]; [|reflexivity].
                cbn [list_eqb]. rewrite (feqb_false HP b a) by congruence. reflexivity.
        * rewrite (fsum_add (p := p)), !(fsum_point HP). reflexivity.
  Qed.
  (** a given prefix *)
  Lemma prefix_count D : forall d0 k (Q : list F -> bool), length d0 = D -> number p k (fun l => list_eqb d0 (firstn D l) && Q (skipn D l)) = if D <=? k then number p (k - D) Q else 0%Z.
  Proof.
    induction D as [|D IH]; intros d0 k Q L.
    - destruct d0; [|discriminate]. cbn [Nat.leb]. rewrite Nat.sub_0_r. apply number_ext. intros x. reflexivity.
    - destruct d0 as [|b d0]; [discriminate|]. destruct k as [|k]; [rewrite number_0; reflexivity|].
      cbn [Nat.leb Nat.sub]. rewrite <- (IH d0 k Q) by (injection L; auto). rewrite number_S.
      rewrite <- (fsum_point HP b (number p k (fun l => list_eqb d0 (firstn D l) && Q (skipn D l)))). apply fsum_ext. intros a. destruct (fdec HP a b) as [->|N].
      + rewrite (feqb_refl HP). apply number_ext. intros x. cbn [firstn skipn list_eqb]. rewrite (feqb_refl HP). reflexivity.
      + rewrite (feqb_false HP _ _ N). rewrite <- (number_false (F := F) (p := p) k). apply number_ext. intros x. cbn [firstn skipn list_eqb]. rewrite (feqb_false HP b a) by congruence. reflexivity.
  Qed.

  (** ** the code *)
  Definition agree (l : list F) (rng : nat -> F) (pos : nat) : Prop := forall i, i < length l -> rng (pos + i) = nth i l f0.
  Lemma agree_tl a l rng pos : agree (a :: l) rng pos -> rng pos = a /\ agree l rng (S pos).
  Proof. intros H. split; [rewrite <- (Nat.add_0_r pos); apply (H 0); cbn; lia|]. intros i Hi. rewrite Nat.add_succ_comm. apply (H (S i)). cbn. lia. Qed.
  Lemma scalar_take fuel rng : forall l pos, length l <= fuel -> agree l rng pos ->
    match take_nz l 1 with
    | Some (m, r) => exists a, m = [a] /\ random_scalar_without_0 fuel rng pos = Ok (a, pos + (length l - length r)) /\ agree r rng (pos + (length l - length r)) /\ length r < length l
    | None => (forall i, rng (pos + length l + i) = f0) -> random_scalar_without_0 fuel rng pos = Fuel
    end.
  Proof.
    intros l. revert fuel. induction l as [|a l IH]; intros fuel pos Hl HA.
    - cbn [take_nz]. intros Hz. apply (ProofNeptuneParams.without_0_fuel HF). intros i _. rewrite <- (Hz i). f_equal. cbn. lia.
    - apply agree_tl in HA. destruct HA as [Ea HA]. destruct fuel as [|fuel]; [cbn in Hl; lia|]. cbn [take_nz]. cbn [random_scalar_without_0 random_scalar]. rewrite Ea. unfold fis_zero.
      destruct (feqb a f0) eqn:E; cbn [negb].
      + specialize (IH fuel (S pos) ltac:(cbn in Hl; lia) HA). destruct (take_nz l 1) as [[m r]|].
        * destruct IH as (b & Em & E1 & E2 & E3). exists b. cbn [length]. replace (pos + (S (length l) - length r)) with (S pos + (length l - length r)) by lia.
          repeat split; try assumption. lia.
        * intros Hz. apply IH. intros i. rewrite <- (Hz i). f_equal. cbn. lia.
      + rewrite take_0. exists a. cbn [length]. replace (pos + (S (length l) - length l)) with (S pos) by lia. repeat split; [exact HA|lia].
  Qed.
  Lemma take_nz_S l : forall t, take_nz l (S t) = match take_nz l 1 with Some (m1, r) => match take_nz r t with Some (m, r') => Some (m1 ++ m, r') | None => None end | None => None end.
  Proof.
    induction l as [|a l IH]; intros t; [reflexivity|]. cbn [take_nz]. destruct (feqb a f0); [apply IH|]. rewrite take_0. destruct (take_nz l t) as [[m r']|]; reflexivity.
  Qed.
  Lemma take_len l : forall t m r, take_nz l t = Some (m, r) -> length r <= length l.
  Proof.
    induction l as [|a l IH]; intros t m r E; destruct t as [|t]; cbn [take_nz] in E; try (injection E as _ <-; cbn; lia); try discriminate.
    destruct (feqb a f0); [apply IH in E; cbn; lia|]. destruct (take_nz l t) as [[m' r']|] eqn:E'; [|discriminate]. injection E as _ <-. apply IH in E'. cbn. lia.
  Qed.
  Lemma mu_take fuel rng t : forall l pos, length l <= fuel -> agree l rng pos ->
    match take_nz l t with
    | Some (m, r) => np_instantiate_mu fuel t rng pos = Ok (map (fun a => fsub a f1) m, pos + (length l - length r)) /\ agree r rng (pos + (length l - length r))
    | None => (forall i, rng (pos + length l + i) = f0) -> np_instantiate_mu fuel t rng pos = Fuel
    end.
  Proof.
    induction t as [|t IH]; intros l pos Hl HA.
    - rewrite take_0. cbn [np_instantiate_mu map]. rewrite Nat.sub_diag, Nat.add_0_r. split; [reflexivity|exact HA].
    - rewrite take_nz_S. cbn [np_instantiate_mu]. pose proof (scalar_take fuel rng l pos Hl HA) as S1. destruct (take_nz l 1) as [[m1 r]|].
      + destruct S1 as (a & -> & E1 & HA1 & L1). rewrite E1. cbn [bind]. specialize (IH r _ ltac:(lia) HA1). destruct (take_nz r t) as [[m r']|] eqn:Et.
        * pose proof (take_len r t m r' Et). destruct IH as [E2 HA2]. rewrite E2. cbn [bind app map].
          replace (pos + (length l - length r) + (length r - length r')) with (pos + (length l - length r')) in * by lia. split; [reflexivity|exact HA2].
        * intros Hz. rewrite IH; [reflexivity|]. intros i. rewrite <- (Hz i). f_equal. lia.
      + intros Hz. rewrite (S1 Hz). reflexivity.
  Qed.
  Definition pad (l : list F) (z : F) (i : nat) : F := nth i l z.
  Lemma pad_starts l z : starts_with l (pad l z).
  Proof. intros i Hi. unfold pad. apply nth_indep. exact Hi. Qed.
  Lemma pad_after l z i : length l <= i -> pad l z i = z.
  Proof. intros H. unfold pad. apply nth_overflow. exact H. Qed.
  Lemma starts_agree l rng : starts_with l rng <-> agree l rng 0.
  Proof. split; intros H i Hi; apply H; exact Hi. Qed.
  Lemma lists_by k (P : (nat -> F) -> Prop) (Q : list F -> bool) N : (forall l, length l = k -> (Q l = true <-> forall rng, starts_with l rng -> P rng)) -> number p k Q = N ->
    exists L, lists_draws k P L /\ Z.of_nat (length L) = N.
  Proof.
    intros H E. exists (filter Q (vectors p k)). split; [|exact E]. split; [apply NoDup_filter, (vectors_nodup HP)|].
    intros l. rewrite filter_In, (vectors_in HP). split; intros [A B]; (split; [exact A|]); apply (H l A); exact B.
  Qed.
  Lemma number_true_0 k : number (F := F) p k (fun _ => true) = if 0 <=? k then (p ^ Z.of_nat (k - 0))%Z else 0%Z.
  Proof. cbn [Nat.leb]. rewrite Nat.sub_0_r. apply number_all. Qed.
  Lemma sub1_inj : forall m m' : list F, map (fun a => fsub a f1) m = map (fun a => fsub a f1) m' -> m = m'.
  Proof.
    induction m as [|a m IH]; intros [|b m'] E; cbn [map] in E; try discriminate; [reflexivity|]. injection E as E1 E2. f_equal; [|apply IH; exact E2].
    assert (K : forall x : F, fadd (fsub x f1) f1 = x) by (intros x; pose proof (ff_ring _ HF) as R; rewrite (Rsub_def R), <- (Radd_assoc R), (Radd_comm R (fopp f1)), (Ropp_def R), (Radd_comm R), (Radd_0_l R); reflexivity).
    rewrite <- (K a), <- (K b), E1. reflexivity.
  Qed.
  Lemma take_diag l : forall t m r, take_nz l t = Some (m, r) -> length m = t.
  Proof.
    induction l as [|a l IH]; intros t m r E; destruct t as [|t]; cbn [take_nz] in E; try (injection E as <- _; reflexivity); try discriminate.
    destruct (feqb a f0); [apply IH in E; exact E|]. destruct (take_nz l t) as [[m' r']|] eqn:E'; [|discriminate]. injection E as <- _. apply IH in E'. cbn. lia.
  Qed.

  Theorem diagonal_draws fuel k t m : k <= fuel -> nonzero_diagonal t m ->
    exists L, lists_draws k (fun rng => exists pos, np_instantiate_mu fuel t rng 0 = Ok (map (fun a => fsub a f1) m, pos)) L /\ Z.of_nat (length L) = draws_number p 0 k t.
  Proof.
    intros Hk Hm. apply (lists_by k _ (fits t m (fun _ => true))); [|apply fits_count; [apply number_true_0|exact Hm]].
    intros l Hl. unfold fits. split.
    - intros H rng Hs. apply starts_agree in Hs. pose proof (mu_take fuel rng t l 0 ltac:(lia) Hs) as M. destruct (take_nz l t) as [[m' r]|]; [|discriminate].
      rewrite andb_true_r in H. apply (list_eqb_ok HP) in H. subst m'. destruct M as [M _]. eexists. exact M.
    - intros H. destruct (H (pad l f0) (pad_starts l f0)) as [pos E].
      pose proof (mu_take fuel (pad l f0) t l 0 ltac:(lia) (proj1 (starts_agree _ _) (pad_starts l f0))) as M. destruct (take_nz l t) as [[m' r]|].
      + rewrite andb_true_r. destruct M as [M _]. rewrite M in E. injection E as E _. apply sub1_inj in E. subst m'. apply list_eqb_refl.
      + rewrite M in E; [discriminate|]. intros i. apply pad_after. lia.
  Qed.
  Lemma draws_0 e k : draws_number p e k 0 = if e <=? k then (p ^ Z.of_nat (k - e))%Z else 0%Z.
  Proof. destruct k; reflexivity. Qed.
  Lemma draws_1 : forall k, ((p - 1) * draws_number p 0 k 1 = p ^ Z.of_nat k - 1)%Z.
  Proof.
    induction k as [|k IH]; [cbn; lia|]. change (draws_number p 0 (S k) 1) with (draws_number p 0 k 1 + draws_number p 0 k 0)%Z.
    rewrite Z.mul_add_distr_l, IH, draws_0. cbn [Nat.leb]. rewrite Nat.sub_0_r, Nat2Z.inj_succ, Z.pow_succ_r by lia. lia.
  Qed.
  Theorem scalar_draws fuel k a : k <= fuel -> a <> f0 ->
    exists L, lists_draws k (fun rng => exists pos, random_scalar_without_0 fuel rng 0 = Ok (a, pos)) L /\ ((p - 1) * Z.of_nat (length L) = p ^ Z.of_nat k - 1)%Z.
  Proof.
    intros Hk Ha. destruct (diagonal_draws fuel k 1 [a] Hk) as [L [[N H] E]]; [split; [reflexivity|]; intros [|i] Hi; [exact Ha|lia]|].
    exists L. split; [|rewrite E; apply draws_1]. split; [exact N|]. intros l. rewrite H. split; intros [A B]; (split; [exact A|]); intros rng Hs; destruct (B rng Hs) as [pos X]; cbn [np_instantiate_mu] in *.
    - destruct (random_scalar_without_0 fuel rng 0) as [[b q]| |]; cbn [bind] in X; try discriminate. injection X as X _. exists q. f_equal. f_equal.
      assert (Y : [b] = [a]) by (apply sub1_inj; cbn [map]; f_equal; exact X). injection Y as Y. exact Y.
    - rewrite X. cbn [bind]. eexists. reflexivity.
  Qed.

  (** ** NeptuneParams::new *)
  Definition build (t d rf rp : nat) (rc me : list (list F)) (mu : list F) (c : F) : NeptuneParams F :=
    {| np_t := t; np_d := d; np_rounds_f_beginning := rf / 2; np_rounds_p := rp; np_rounds_f_end := rf / 2; np_rounds := rf + rp; np_rc := rc; np_m_e := me;
       np_mu := mu; np_abc := (f1, f1, c); np_a_ := (fsquare f1, fadd (fdouble f1) f1, fdouble (fdouble f1)) |}.
  Lemma new_form dbg fuel rng t d rf rp : ProofNeptuneParams.np_args t d rf -> (N.of_nat rf + N.of_nat rp < usize_mod)%N ->
    np_new dbg fuel rng t d rf rp = match np_instantiate_mu fuel t rng ((rf + rp) * t + np_mat_draws t) with
      | Ok (mu, pos) => Ok (build t d rf rp (mk_mat (rf + rp) t (fun i j => rng (i * t + j))) (mk_mat t t (np_ext_entry t (rf + rp) rng)) mu (rng pos))
      | Panic => Panic | Fuel => Fuel end.
  Proof.
    intros [Hd [Hr Ht]] Hov. unfold np_new. rewrite (proj2 (ProofPoseidon2.degree_bool d) Hd), Hr, Ht. cbn [Nat.eqb assert bind].
    rewrite uadd_ok by exact Hov. cbn [bind]. unfold np_instantiate_rc. rewrite ProofNeptuneParams.random_rows_ok. rewrite Nat.add_0_l.
    destruct (ProofNeptuneParams.external_matrix_ok t (rf + rp) rng Ht) as [p1 E2]. pose proof (ProofNeptuneParams.ext_pos_eq t _ _ _ _ Ht E2) as Ep. rewrite E2. cbn [bind]. subst p1.
    destruct (np_instantiate_mu fuel t rng ((rf + rp) * t + np_mat_draws t)) as [[mu p2]| |]; reflexivity.
  Qed.
  Lemma mk_mat_entries a b (f g : nat -> nat -> F) : mk_mat a b f = mk_mat a b g -> forall i j, i < a -> j < b -> f i j = g i j.
  Proof. intros E i j Hi Hj. rewrite <- (mk_mat_entry a b f i j Hi Hj), <- (mk_mat_entry a b g i j Hi Hj). rewrite E. reflexivity. Qed.
  Lemma fixed_part t rounds (rng rng' : nat -> F) : t mod 2 = 0 ->
    (mk_mat rounds t (fun i j => rng (i * t + j)) = mk_mat rounds t (fun i j => rng' (i * t + j)) /\ mk_mat t t (np_ext_entry t rounds rng) = mk_mat t t (np_ext_entry t rounds rng')) <->
    forall i, i < rounds * t + np_mat_draws t -> rng i = rng' i.
  Proof.
    intros Ht. split.
    - intros [A B] i Hi. destruct (Nat.lt_ge_cases i (rounds * t)) as [L|L].
      + assert (T : t <> 0) by (intros ->; lia). pose proof (Nat.div_mod i t T) as DM. pose proof (Nat.mod_upper_bound i t T) as MB.
        assert (i / t < rounds) by (apply Nat.div_lt_upper_bound; lia).
        pose proof (mk_mat_entries _ _ _ _ A (i / t) (i mod t) H MB) as X. cbn beta in X. replace (i / t * t + i mod t) with i in X by lia. exact X.
      + unfold np_mat_draws in Hi. destruct (Nat.eqb_spec t 4) as [E4|E4]; [cbn [orb] in Hi; lia|]. destruct (Nat.eqb_spec t 8) as [E8|E8]; [cbn [orb] in Hi; lia|]. cbn [orb] in Hi.
        assert (Hh : t = 2 * (t / 2)) by lia. set (h := t / 2) in *. assert (T : h <> 0) by (intros Z0; rewrite Z0 in *; lia).
        pose proof (mk_mat_entries _ _ _ _ B) as X. unfold np_ext_entry, np_odd_block, np_even_block in X. fold h in X. destruct (Nat.eqb_spec t 4); [contradiction|]. destruct (Nat.eqb_spec t 8); [contradiction|].
        destruct (Nat.lt_ge_cases (i - rounds * t) (h * h)) as [L2|L2].
        * set (q := i - rounds * t) in *. pose proof (Nat.div_mod q h T) as DM. pose proof (Nat.mod_upper_bound q h T) as MB.
          assert (Q : q / h < h) by (apply Nat.div_lt_upper_bound; lia). specialize (X (2 * (q / h)) (2 * (q mod h)) ltac:(lia) ltac:(lia)).
          rewrite !(Nat.mul_comm 2), !Nat.mod_mul, !Nat.div_mul in X by lia. cbn [Nat.eqb andb] in X. replace (rounds * t + q / h * h + q mod h) with i in X by lia. exact X.
        * set (q := i - rounds * t - h * h) in *. pose proof (Nat.div_mod q h T) as DM. pose proof (Nat.mod_upper_bound q h T) as MB.
          assert (Q : q / h < h) by (apply Nat.div_lt_upper_bound; lia). specialize (X (2 * (q / h) + 1) (2 * (q mod h) + 1) ltac:(lia) ltac:(lia)).
          replace ((2 * (q / h) + 1) mod 2) with 1 in X by (rewrite Nat.add_comm, Nat.mul_comm, Nat.mod_add by lia; reflexivity).
          replace ((2 * (q mod h) + 1) mod 2) with 1 in X by (rewrite Nat.add_comm, Nat.mul_comm, Nat.mod_add by lia; reflexivity).
          replace ((2 * (q / h) + 1) / 2) with (q / h) in X by (rewrite Nat.add_comm, Nat.mul_comm, Nat.div_add by lia; reflexivity).
          replace ((2 * (q mod h) + 1) / 2) with (q mod h) in X by (rewrite Nat.add_comm, Nat.mul_comm, Nat.div_add by lia; reflexivity).
          cbn [Nat.eqb andb] in X. replace (rounds * t + h * h + q / h * h + q mod h) with i in X by lia. exact X.
    - intros A. split; apply mk_mat_ext; intros i j Hi Hj.
      + apply A. assert (i * t + j < rounds * t) by nia. lia.
      + unfold np_ext_entry, np_odd_block, np_even_block. unfold np_mat_draws in A. destruct (Nat.eqb_spec t 4); [reflexivity|]. destruct (Nat.eqb_spec t 8); [reflexivity|]. cbn [orb] in A.
        assert (Hi2 : i / 2 < t / 2) by (apply Nat.div_lt_upper_bound; lia). assert (Hj2 : j / 2 < t / 2) by (apply Nat.div_lt_upper_bound; lia).
        set (h := t / 2) in *. set (a := i / 2) in *. set (b := j / 2) in *. clearbody h a b. assert (W : a * h + b < h * h) by nia.
        destruct ((i mod 2 =? 1) && (j mod 2 =? 1)); [apply A; lia|]. destruct ((i mod 2 =? 0) && (j mod 2 =? 0)); [apply A; lia|reflexivity].
  Qed.
  Definition head_is (c : F) (r : list F) : bool := match r with a :: _ => feqb a c | [] => false end.
  Lemma head_count c k : number p k (head_is c) = if 1 <=? k then (p ^ Z.of_nat (k - 1))%Z else 0%Z.
  Proof.
    destruct k as [|k]; [rewrite number_0; reflexivity|]. cbn [Nat.leb]. replace (S k - 1) with k by lia. rewrite number_S, <- number_all, <- (fsum_point HP c (number p k (fun _ => true))).
    apply fsum_ext. intros a. cbn [head_is]. destruct (feqb a c); [reflexivity|apply number_false].
  Qed.
  Lemma starts_skip D l rng : D <= length l -> starts_with l rng -> agree (skipn D l) rng D.
  Proof.
    intros HD H i Hi. rewrite skipn_length in Hi. rewrite H by lia. rewrite <- (firstn_skipn D l) at 1. rewrite app_nth2; rewrite firstn_length; [f_equal; lia|lia].
  Qed.
  Theorem new_draws dbg fuel rng0 t d rf rp P k : np_new dbg fuel rng0 t d rf rp = Ok P -> (N.of_nat rf + N.of_nat rp < usize_mod)%N -> k <= fuel ->
    exists L, lists_draws k (fun rng => np_new dbg fuel rng t d rf rp = Ok P) L /\
      Z.of_nat (length L) = let D := (rf + rp) * t + np_mat_draws t in if D <=? k then draws_number p 1 (k - D) t else 0%Z.
  Proof.
    intros HN Hov Hk. destruct (ProofNeptuneParams.np_new_ok HF _ _ _ _ _ _ _ _ HN Hov) as [Ha _]. pose proof Ha as [_ [_ Ht]].
    rewrite (new_form _ _ _ _ _ _ _ Ha Hov) in HN. cbv zeta. set (D := (rf + rp) * t + np_mat_draws t) in *.
    destruct (np_instantiate_mu fuel t rng0 D) as [[mu pos0]| |] eqn:Emu; try discriminate. injection HN as HN.
    destruct (ProofNeptuneParams.mu_ok HF _ _ _ _ _ _ Emu) as [Lmu Hmu]. set (m := map (fun a => fadd a f1) mu).
    assert (K : forall x : F, fadd (fsub x f1) f1 = x) by (intros x; pose proof (ff_ring _ HF) as R; rewrite (Rsub_def R), <- (Radd_assoc R), (Radd_comm R (fopp f1)), (Ropp_def R), (Radd_comm R), (Radd_0_l R); reflexivity).
    assert (K' : forall x : F, fsub (fadd x f1) f1 = x) by (intros x; pose proof (ff_ring _ HF) as R; rewrite (Rsub_def R), <- (Radd_assoc R), (Ropp_def R), (Radd_comm R), (Radd_0_l R); reflexivity).
    assert (Em : map (fun a => fsub a f1) m = mu). { unfold m. rewrite map_map. rewrite (map_ext _ (fun a => a)); [apply map_id|]. exact K'. }
    assert (Hm : nonzero_diagonal t m).
    { split; [unfold m; rewrite map_length; exact Lmu|]. intros i Hi. destruct (Hmu i Hi) as (q & _ & Nq & Eq). unfold m.
      rewrite (nth_indep _ f0 (fadd f0 f1)) by (rewrite map_length; lia). rewrite (map_nth (fun a => fadd a f1)). rewrite Eq, K. exact Nq. }
    set (d0 := map rng0 (seq 0 D)). assert (Ld : length d0 = D) by (unfold d0; rewrite map_length, seq_length; reflexivity).
    assert (Nd : forall i, i < D -> nth i d0 f0 = rng0 i).
    { intros i Hi. unfold d0. rewrite (nth_indep _ f0 (rng0 0)) by (rewrite map_length, seq_length; exact Hi). rewrite map_nth, seq_nth by exact Hi. reflexivity. }
    apply (lists_by k _ (fun l => list_eqb d0 (firstn D l) && fits t m (head_is (rng0 pos0)) (skipn D l))).
    2:{ rewrite (prefix_count D d0 k _ Ld). destruct (D <=? k); [|reflexivity]. apply fits_count; [apply head_count|exact Hm]. }
    intros l Hl. split.
    - intros H rng Hs. apply andb_true_iff in H. destruct H as [H1 H2]. apply (list_eqb_ok HP) in H1.
      assert (HD : D <= length l). { apply (f_equal (@length F)) in H1. rewrite Ld, firstn_length in H1. lia. }
      assert (Hfix : forall i, i < D -> rng i = rng0 i).
      { intros i Hi. rewrite <- (Nd i Hi), H1, Hs by lia. rewrite <- (firstn_skipn D l) at 1. rewrite app_nth1 by (rewrite firstn_length; lia). reflexivity. }
      rewrite (new_form _ _ _ _ _ _ _ Ha Hov). fold D. pose proof (mu_take fuel rng t (skipn D l) D ltac:(rewrite skipn_length; lia) (starts_skip D l rng HD Hs)) as M.
      unfold fits in H2. destruct (take_nz (skipn D l) t) as [[m' r]|]; [|discriminate]. apply andb_true_iff in H2. destruct H2 as [H2 H3]. apply (list_eqb_ok HP) in H2. subst m'.
      destruct M as [M HA]. rewrite M, Em. destruct r as [|c r]; [discriminate|]. cbn [head_is] in H3. apply (ff_eqb _ HF) in H3. apply agree_tl in HA. destruct HA as [Ec _].
      destruct (proj2 (fixed_part t (rf + rp) rng rng0 Ht) Hfix) as [X Y]. rewrite X, Y, Ec, H3, HN. reflexivity.
    - intros H.
      assert (G : forall z, (forall i, i < D -> pad l z i = rng0 i) /\ exists pos, np_instantiate_mu fuel t (pad l z) D = Ok (mu, pos) /\ pad l z pos = rng0 pos0).
      { intros z. specialize (H (pad l z) (pad_starts l z)). rewrite (new_form _ _ _ _ _ _ _ Ha Hov) in H. fold D in H.
        destruct (np_instantiate_mu fuel t (pad l z) D) as [[mu' pos]| |]; try discriminate. rewrite <- HN in H. unfold build in H. injection H as H1 H2 H3 H4.
        split; [apply (fixed_part t (rf + rp)); [exact Ht|split; assumption]|]. exists pos. split; [rewrite H3; reflexivity|exact H4]. }
      destruct (G f0) as [G0 (q0 & M0 & C0)]. destruct (G f1) as [G1 (q1 & M1 & C1)].
      assert (HD : D <= length l).
      { destruct (Nat.le_gt_cases D (length l)) as [L|L]; [exact L|]. exfalso. apply (H01 HP).
        transitivity (rng0 (length l)); [rewrite <- (G0 (length l) L)|rewrite <- (G1 (length l) L)]; [symmetry|]; apply pad_after; lia. }
      apply andb_true_iff. split.
      + apply (list_eqb_ok HP). apply (nth_ext _ _ f0 f0); [rewrite firstn_length; lia|]. rewrite Ld. intros i Hi. rewrite (Nd i Hi), <- (G0 i Hi). unfold pad.
        rewrite <- (firstn_skipn D l) at 1. rewrite app_nth1 by (rewrite firstn_length; lia). reflexivity.
      + unfold fits.
        pose proof (mu_take fuel (pad l f0) t (skipn D l) D ltac:(rewrite skipn_length; lia) (starts_skip D l _ HD (pad_starts l f0))) as T0.
        pose proof (mu_take fuel (pad l f1) t (skipn D l) D ltac:(rewrite skipn_length; lia) (starts_skip D l _ HD (pad_starts l f1))) as T1.
        destruct (take_nz (skipn D l) t) as [[m' r]|].
        * destruct T0 as [T0 A0]. destruct T1 as [T1 A1]. rewrite T0 in M0. rewrite T1 in M1. injection M0 as Mm P0. injection M1 as _ P1.
          apply andb_true_iff. split; [apply (list_eqb_ok HP), sub1_inj; rewrite Em, Mm; reflexivity|].
          destruct r as [|c r].
          -- exfalso. cbn [length] in P0, P1. rewrite Nat.sub_0_r, skipn_length in P0, P1. rewrite <- P0 in C0. rewrite <- P1 in C1. rewrite pad_after in C0, C1 by lia. apply (H01 HP). congruence.
          -- apply agree_tl in A0. destruct A0 as [A0 _]. cbn [head_is]. apply (ff_eqb _ HF). rewrite <- A0, P0. exact C0.
        * rewrite T0 in M0; [discriminate|]. intros i. apply pad_after. rewrite skipn_length. lia.
  Qed.
End U.

Lemma draws_positive p extra : (2 <= p)%Z -> forall k t, (0 <= draws_number p extra k t)%Z /\ ((0 < draws_number p extra k t)%Z <-> t + extra <= k).
Proof.
  intros Hp. induction k as [|k IH]; intros t.
  - destruct t as [|t]; cbn [draws_number]; [|lia]. destruct (Nat.leb_spec extra 0); [|lia]. pose proof (Z.pow_pos_nonneg p (Z.of_nat (0 - extra)) ltac:(lia) ltac:(lia)). lia.
  - destruct t as [|t]; cbn [draws_number].
    + destruct (Nat.leb_spec extra (S k)); [|lia]. pose proof (Z.pow_pos_nonneg p (Z.of_nat (S k - extra)) ltac:(lia) ltac:(lia)). lia.
    + destruct (IH (S t)) as [A B]. destruct (IH t) as [C D]. split; [lia|]. split; [|intros H; assert (0 < draws_number p extra k t)%Z by (apply D; lia); lia].
      intros H. destruct (Z.lt_ge_cases 0 (draws_number p extra k t)) as [G|G]; [apply D in G; lia|]. assert (G' : (0 < draws_number p extra k (S t))%Z) by lia. apply B in G'. lia.
Qed.
Theorem gmimc_draws {F} (Fo : FOps F) p (HP : is_prime_field Fo p) rng0 t d rounds P k : gm_new rng0 t d rounds = Ok P ->
  exists L, lists_draws k (fun rng => gm_new rng t d rounds = Ok P) L /\ Z.of_nat (length L) = if rounds <=? k then (p ^ Z.of_nat (k - rounds))%Z else 0%Z.
Proof.
  intros HN. unfold gm_new in *. destruct ((d =? 3) || (d =? 5) || (d =? 7)); [|discriminate]. cbn [assert bind] in *. injection HN as HN. unfold gm_instantiate_rc in *.
  apply (lists_by HP k _ (fun l => list_eqb (map rng0 (seq 0 rounds)) (firstn rounds l) && true)).
  2:{ rewrite (prefix_count HP rounds _ k (fun _ => true)) by (rewrite map_length, seq_length; reflexivity). destruct (rounds <=? k); [|reflexivity]. apply (number_all HP). }
  assert (W : forall r r' : nat -> F, map r (seq 0 rounds) = map r' (seq 0 rounds) <-> forall i, i < rounds -> r i = r' i).
  { intros r r'. split; intros H.
    - intros i Hi. apply (f_equal (fun l => nth i l f0)) in H. rewrite (nth_indep _ f0 (r 0)), (nth_indep (map r' _) f0 (r' 0)) in H by (rewrite map_length, seq_length; exact Hi).
      rewrite !map_nth, !seq_nth in H by exact Hi. exact H.
    - apply map_ext_in. intros i Hi. apply in_seq in Hi. apply H. lia. }
  intros l Hl. rewrite andb_true_r. rewrite (list_eqb_ok HP). split.
  - intros H rng Hs. rewrite <- HN. f_equal. f_equal. apply W. intros i Hi. assert (HD : rounds <= length l). { apply (f_equal (@length F)) in H. rewrite map_length, seq_length, firstn_length in H. lia. }
    rewrite Hs by lia. rewrite <- (firstn_skipn rounds l). rewrite app_nth1 by (rewrite firstn_length; lia). rewrite <- H.
    rewrite (nth_indep _ f0 (rng0 0)) by (rewrite map_length, seq_length; exact Hi). rewrite map_nth, seq_nth by exact Hi. reflexivity.
  - intros H. assert (G : forall z i, i < rounds -> pad l z i = rng0 i).
    { intros z. specialize (H _ (pad_starts l z)). rewrite <- HN in H. injection H as H. apply W. exact H. }
    assert (HD : rounds <= length l).
    { destruct (Nat.le_gt_cases rounds (length l)) as [L|L]; [exact L|]. exfalso. apply (H01 HP).
      transitivity (rng0 (length l)); [rewrite <- (G f0 (length l) L); symmetry|rewrite <- (G f1 (length l) L)]; apply pad_after; lia. }
    apply (nth_ext _ _ f0 f0); [rewrite map_length, seq_length, firstn_length; lia|]. rewrite map_length, seq_length. intros i Hi.
    rewrite (nth_indep _ f0 (rng0 0)) by (rewrite map_length, seq_length; exact Hi). rewrite map_nth, seq_nth by exact Hi. cbn [Nat.add].
    rewrite <- (G f0 i Hi). unfold pad. rewrite <- (firstn_skipn rounds l) at 1. rewrite app_nth1 by (rewrite firstn_length; lia). reflexivity.
Qed.
