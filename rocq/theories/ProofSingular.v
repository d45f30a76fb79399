(** * ProofSingular: counting the singular internal matrices of Neptune *)
From Coq Require Import Permutation.
From Verif Require Import Base Field Spec SpecNeptune SpecCount SpecSingular ProofCount LinAlg ModelRandom ModelNeptune.
From Verif Require ProofNeptuneBij ProofNeptuneFin ProofNeptuneParams.
Local Open Scope nat_scope.

Section S.
  Context {F : Type} {Fo : FOps F} {p : Z} (HP : is_prime_field Fo p).
  Let HF := prime_field_is_field HP.
  Add Ring FRSing : (ff_ring _ HF).

  Lemma feqb_refl (a : F) : feqb a a = true.
  Proof. now apply (ff_eqb _ HF). Qed.
  Lemma feqb_false (a b : F) : a <> b -> feqb a b = false.
  Proof. intros N. destruct (feqb a b) eqn:E; [|reflexivity]. apply (ff_eqb _ HF) in E. contradiction. Qed.
  Lemma fdec (a b : F) : {a = b} + {a <> b}.
  Proof. destruct (feqb a b) eqn:E; [left; now apply (ff_eqb _ HF)|right]. intros ->. rewrite feqb_refl in E. discriminate. Qed.

  (** ** sums over the field *)
  Definition zsum (h : F -> Z) (l : list F) : Z := fold_right Z.add 0%Z (map h l).
  Lemma zsum_ext h k l : (forall a, h a = k a) -> zsum h l = zsum k l.
  Proof. intros H. unfold zsum. rewrite (map_ext _ _ H). reflexivity. Qed.
  Lemma zsum_add h k l : zsum (fun a => h a + k a)%Z l = (zsum h l + zsum k l)%Z.
  Proof. unfold zsum. induction l as [|a l IH]; [reflexivity|]. cbn [map fold_right]. rewrite IH. lia. Qed.
  Lemma zsum_const B l : zsum (fun _ => B) l = (Z.of_nat (length l) * B)%Z.
  Proof. unfold zsum. induction l as [|a l IH]; [reflexivity|]. cbn [map fold_right length]. rewrite IH. lia. Qed.
  Lemma zsum_perm h l m : Permutation l m -> zsum h l = zsum h m.
  Proof. unfold zsum. induction 1; cbn [map fold_right]; lia. Qed.
  Lemma zsum_map h (f : F -> F) l : zsum h (map f l) = zsum (fun a => h (f a)) l.
  Proof. unfold zsum. rewrite map_map. reflexivity. Qed.
  Lemma zsum_none e D l : ~ In e l -> zsum (fun a => if feqb a e then D else 0%Z) l = 0%Z.
  Proof.
    unfold zsum. induction l as [|a l IH]; intros N; [reflexivity|]. cbn [map fold_right]. rewrite IH by (intros C; apply N; right; exact C).
    rewrite feqb_false; [reflexivity|]. intros ->. apply N. left. reflexivity.
  Qed.
  Definition fsum (h : F -> Z) : Z := zsum h (elements p).
  Lemma fsum_point e D : fsum (fun a => if feqb a e then D else 0%Z) = D.
  Proof.
    unfold fsum. pose proof (elements_all HP e) as I. pose proof (elements_nodup HP) as N. revert I N. generalize (elements (F := F) p).
    induction l as [|a l IH]; intros I N; [destruct I|]. inversion N as [|? ? Na Nl]; subst. unfold zsum. cbn [map fold_right].
    destruct (fdec a e) as [->|Ne].
    - rewrite feqb_refl. fold (zsum (fun a => if feqb a e then D else 0%Z) l). rewrite zsum_none by exact Na. lia.
    - rewrite (feqb_false _ _ Ne). destruct I as [->|I]; [contradiction|]. apply (IH I Nl).
  Qed.
  Lemma fsum_const B : fsum (fun _ => B) = (p * B)%Z.
  Proof. unfold fsum. rewrite zsum_const, (elements_length HP). reflexivity. Qed.
  Lemma fsum_add h k : fsum (fun a => h a + k a)%Z = (fsum h + fsum k)%Z.
  Proof. apply zsum_add. Qed.
  Lemma fsum_ext h k : (forall a, h a = k a) -> fsum h = fsum k.
  Proof. apply zsum_ext. Qed.
  Lemma fsum_reindex h (f : F -> F) : (forall a b, f a = f b -> a = b) -> fsum (fun a => h (f a)) = fsum h.
  Proof.
    intros Hf. unfold fsum. rewrite <- zsum_map. apply zsum_perm. apply NoDup_Permutation_bis.
    - apply map_nodup; [apply (elements_nodup HP)|]. intros a b _ _. apply Hf.
    - rewrite map_length. apply le_n.
    - intros x _. apply (elements_all HP).
  Qed.
  (** without the values at two points *)
  Lemma fsum_except h e1 e2 : e1 <> e2 -> fsum (fun a => if feqb a e1 || feqb a e2 then 0%Z else h a) = (fsum h - h e1 - h e2)%Z.
  Proof.
    intros N. transitivity (fsum (fun a => h a + ((if feqb a e1 then - h e1 else 0) + (if feqb a e2 then - h e2 else 0)))%Z).
    - apply fsum_ext. intros a. destruct (fdec a e1) as [->|N1].
      + rewrite feqb_refl, (feqb_false _ _ N). cbn [orb]. lia.
      + rewrite (feqb_false _ _ N1). cbn [orb]. destruct (fdec a e2) as [->|N2]; [rewrite feqb_refl; lia|rewrite (feqb_false _ _ N2); lia].
    - rewrite !fsum_add, !fsum_point. lia.
  Qed.

  (** ** counting vectors word by word *)
  Lemma number_S n Q : number p (S n) Q = fsum (fun a : F => number p n (fun x => Q (a :: x))).
  Proof.
    unfold number, fsum, zsum. cbn [vectors]. rewrite filter_flat. induction (elements (F := F) p) as [|a l IH]; [reflexivity|].
    cbn [flat_map map fold_right]. rewrite app_length, Nat2Z.inj_add, IH, filter_map. reflexivity.
  Qed.
  Lemma number_ext n Q R : (forall x : list F, Q x = R x) -> number p n Q = number p n R.
  Proof. intros H. unfold number. rewrite (filter_ext _ _ H). reflexivity. Qed.
  Lemma number_false n : number (F := F) p n (fun _ => false) = 0%Z.
  Proof. unfold number. rewrite filter_none; reflexivity. Qed.
  Lemma number_split n (Q R : list F -> bool) : number p n Q = (number p n (fun x => Q x && R x) + number p n (fun x => Q x && negb (R x)))%Z.
  Proof.
    unfold number. induction (vectors p n) as [|x l IH]; [reflexivity|]. cbn [filter].
    destruct (Q x), (R x); cbn [andb negb length]; lia.
  Qed.
  Lemma number_fibres n Q (g : list F -> F) : fsum (fun h => number p n (fun x => Q x && feqb (g x) h)) = number p n Q.
  Proof.
    unfold number. induction (vectors p n) as [|x l IH]; cbn [filter length].
    - rewrite fsum_const. lia.
    - transitivity (fsum (fun h => (if feqb h (g x) then (if Q x then 1 else 0) else 0) + Z.of_nat (length (filter (fun x => Q x && feqb (g x) h) l)))%Z).
      + apply fsum_ext. intros h. destruct (fdec h (g x)) as [->|N].
        * rewrite !feqb_refl. destruct (Q x); cbn [andb length]; lia.
        * rewrite (feqb_false _ _ N), (feqb_false (g x) h) by congruence. rewrite andb_false_r. lia.
      + rewrite fsum_add, fsum_point, IH. destruct (Q x); cbn [length]; lia.
  Qed.

  (** ** the diagonals *)
  Definition nz (m : list F) : bool := forallb (fun a => negb (feqb a f0)) m.
  Definition none (m : list F) : bool := forallb (fun a => negb (feqb a f0 || feqb a f1)) m.
  Fixpoint one (m : list F) : bool := match m with [] => false | a :: x => if feqb a f0 then false else if feqb a f1 then none x else one x end.
  Definition isum (m : list F) : F := fold_right (fun a s => fadd (finv (fsub a f1)) s) f0 m.
  Definition good (m : list F) : bool := one m || (none m && negb (feqb (isum m) (fsub f0 f1))).

  Lemma H01 : (f0 : F) <> f1.
  Proof. intros E. apply (ff_one_neq_zero _ HF). congruence. Qed.
  Lemma count_nz n : number p n nz = ((p - 1) ^ Z.of_nat n)%Z.
  Proof.
    induction n as [|n IH]; [reflexivity|]. rewrite number_S. rewrite Nat2Z.inj_succ, Z.pow_succ_r by lia.
    transitivity (fsum (fun a : F => number p n nz + (if feqb a f0 then - number p n nz else 0))%Z).
    - apply fsum_ext. intros a. destruct (fdec a f0) as [->|N].
      + rewrite feqb_refl. rewrite (number_ext _ _ (fun _ => false)); [rewrite number_false; lia|]. intros x. unfold nz. cbn [forallb]. rewrite feqb_refl. reflexivity.
      + rewrite (feqb_false _ _ N), Z.add_0_r. apply number_ext. intros x. unfold nz. cbn [forallb]. rewrite (feqb_false _ _ N). reflexivity.
    - rewrite fsum_add, fsum_const, fsum_point, IH. lia.
  Qed.
  Lemma fsum_two (A B : Z) : fsum (fun a : F => if feqb a f0 then 0 else if feqb a f1 then A else B)%Z = (A + (p - 2) * B)%Z.
  Proof.
    transitivity (fsum (fun a : F => B + ((if feqb a f0 then - B else 0) + (if feqb a f1 then A - B else 0)))%Z).
    - apply fsum_ext. intros a. destruct (fdec a f0) as [->|N].
      + rewrite feqb_refl, (feqb_false _ _ H01). lia.
      + rewrite (feqb_false _ _ N). destruct (feqb a f1); lia.
    - rewrite !fsum_add, fsum_const, !fsum_point. lia.
  Qed.
  Lemma none_cons a x : none (a :: x) = if feqb a f0 || feqb a f1 then false else none x.
  Proof. unfold none. cbn [forallb]. destruct (feqb a f0 || feqb a f1); reflexivity. Qed.
  Lemma count_none n : number p n none = ((p - 2) ^ Z.of_nat n)%Z.
  Proof.
    induction n as [|n IH]; [reflexivity|]. rewrite number_S. rewrite Nat2Z.inj_succ, Z.pow_succ_r by lia. rewrite <- IH.
    transitivity (fsum (fun a : F => if feqb a f0 then 0 else if feqb a f1 then 0 else number p n none)%Z); [|rewrite fsum_two; lia].
    apply fsum_ext. intros a. destruct (feqb a f0) eqn:E0; [|destruct (feqb a f1) eqn:E1].
    - rewrite <- (number_false n). apply number_ext. intros x. rewrite none_cons, E0. reflexivity.
    - rewrite <- (number_false n). apply number_ext. intros x. rewrite none_cons, E0, E1. reflexivity.
    - apply number_ext. intros x. rewrite none_cons, E0, E1. reflexivity.
  Qed.
  Lemma count_one n : number p n one = (Z.of_nat n * (p - 2) ^ (Z.of_nat n - 1))%Z.
  Proof.
    induction n as [|n IH]; [reflexivity|]. rewrite number_S.
    transitivity (fsum (fun a : F => if feqb a f0 then 0 else if feqb a f1 then number p n none else number p n one)%Z).
    - apply fsum_ext. intros a. destruct (feqb a f0) eqn:E0; [|destruct (feqb a f1) eqn:E1].
      + rewrite <- (number_false n). apply number_ext. intros x. cbn [one]. rewrite E0. reflexivity.
      + apply number_ext. intros x. cbn [one]. rewrite E0, E1. reflexivity.
      + apply number_ext. intros x. cbn [one]. rewrite E0, E1. reflexivity.
    - rewrite fsum_two, count_none, IH. replace (Z.of_nat (S n) - 1)%Z with (Z.of_nat n) by lia. destruct n as [|n]; [change (Z.of_nat 0) with 0%Z; change (Z.of_nat 1) with 1%Z; rewrite Z.pow_0_r; ring|].
      replace (Z.of_nat (S n)) with (Z.succ (Z.of_nat n)) by lia. rewrite (Z.pow_succ_r (p - 2)) by lia.
      replace (Z.succ (Z.of_nat n) - 1)%Z with (Z.of_nat n) by lia. rewrite Nat2Z.inj_succ. rewrite Nat2Z.inj_succ. lia.
  Qed.

  (** diagonals without 0 and 1 and a given sum *)
  Definition csum (n : nat) (s : F) : Z := number p n (fun m => none m && feqb (isum m) s).
  Lemma inv_unique (a b : F) : fmul a b = f1 -> a = finv b.
  Proof.
    intros H. assert (N : b <> f0). { intros ->. apply H01. rewrite <- H. ring. }
    transitivity (fmul (fmul (finv b) b) a); [rewrite (ff_inv _ HF _ N); ring|]. transitivity (fmul (finv b) (fmul a b)); [ring|]. rewrite H. ring.
  Qed.
  Definition phi (a : F) : F := if feqb a f1 then f0 else finv (fsub a f1).
  Lemma sub_zero (a b : F) : fsub a b = f0 -> a = b.
  Proof. intros H. transitivity (fadd (fsub a b) b); [ring|]. rewrite H. ring. Qed.
  Lemma inv_nonzero (a : F) : a <> f0 -> finv a <> f0.
  Proof. intros N E. apply H01. rewrite <- (ff_inv _ HF _ N), E. ring. Qed.
  Lemma phi_inj a b : phi a = phi b -> a = b.
  Proof.
    unfold phi. destruct (fdec a f1) as [->|Na]; destruct (fdec b f1) as [->|Nb]; rewrite ?feqb_refl, ?(feqb_false _ _ Na), ?(feqb_false _ _ Nb); intros H; [reflexivity| | |].
    - exfalso. apply (inv_nonzero (fsub b f1)); [intros E; apply Nb, sub_zero, E|]. congruence.
    - exfalso. apply (inv_nonzero (fsub a f1)); [intros E; apply Na, sub_zero, E|]. congruence.
    - assert (A : fsub a f1 <> f0) by (intros E; apply Na, sub_zero, E). assert (B : fsub b f1 <> f0) by (intros E; apply Nb, sub_zero, E).
      assert (E : fsub a f1 = fsub b f1).
      { transitivity (fmul (fmul (finv (fsub b f1)) (fsub b f1)) (fsub a f1)); [rewrite (ff_inv _ HF _ B); ring|].
        rewrite <- H. transitivity (fmul (fmul (finv (fsub a f1)) (fsub a f1)) (fsub b f1)); [ring|]. rewrite (ff_inv _ HF _ A). ring. }
      transitivity (fadd (fsub a f1) f1); [ring|]. rewrite E. ring.
  Qed.
  Lemma phi_zero : phi f0 = fsub f0 f1.
  Proof. unfold phi. rewrite (feqb_false _ _ H01). symmetry. apply inv_unique. ring. Qed.

  Lemma csum_S n s : csum (S n) s = ((p - 2) ^ Z.of_nat n - csum n s - csum n (fadd s f1))%Z.
  Proof.
    unfold csum at 1. rewrite number_S.
    transitivity (fsum (fun a => if feqb a f0 || feqb a f1 then 0 else csum n (fsub s (phi a)))%Z).
    - apply fsum_ext. intros a. destruct (feqb a f0 || feqb a f1) eqn:E.
      + rewrite <- (number_false n). apply number_ext. intros x. rewrite none_cons, E. reflexivity.
      + unfold csum. apply number_ext. intros x. rewrite none_cons, E. f_equal. cbn [isum fold_right]. fold (isum x). unfold phi.
        apply orb_false_iff in E. destruct E as [_ ->]. destruct (fdec (isum x) (fsub s (finv (fsub a f1)))) as [->|N].
        * rewrite feqb_refl. replace (fadd (finv (fsub a f1)) (fsub s (finv (fsub a f1)))) with s by ring. apply feqb_refl.
        * rewrite (feqb_false _ _ N). apply feqb_false. intros E. apply N. rewrite <- E. ring.
    - rewrite (fsum_except (fun a => csum n (fsub s (phi a))) f0 f1 H01). rewrite phi_zero.
      rewrite (fsum_reindex (fun u => csum n (fsub s u)) phi phi_inj).
      rewrite (fsum_reindex (csum n) (fun u => fsub s u)).
      2: { intros a b E. transitivity (fsub s (fsub s a)); [ring|]. rewrite E. ring. }
      unfold csum at 1. rewrite number_fibres, count_none. replace (phi f1) with (f0 : F) by (unfold phi; rewrite feqb_refl; reflexivity).
      replace (fsub s (fsub f0 f1)) with (fadd s f1) by ring. replace (fsub s f0) with s by ring. lia.
  Qed.

  Fixpoint binom (n k : nat) : nat := match n, k with _, 0 => 1 | 0, S _ => 0 | S n, S k => binom n k + binom n (S k) end.
  Lemma binom_big n k : n < k -> binom n k = 0.
  Proof. revert k. induction n as [|n IH]; intros [|k] H; try lia; [reflexivity|]. cbn [binom]. rewrite !IH by lia. reflexivity. Qed.
  Lemma binom_0 n : binom n 0 = 1.
  Proof. destruct n; reflexivity. Qed.
  Lemma binom_1 n : binom n 1 = n.
  Proof. induction n as [|n IH]; [reflexivity|]. cbn [binom]. rewrite binom_0, IH. lia. Qed.
  Definition neg (j : nat) : F := f_of_Z (- Z.of_nat j).
  Lemma neg_S j : fadd (neg (S j)) f1 = neg j.
  Proof.
    pose proof (pf_p_ge_2 HP). apply (f_to_Z_inj HP). rewrite (pf_add _ _ HP). unfold neg. rewrite !(pf_to_of _ _ HP), (pf_one _ _ HP).
    rewrite Zplus_mod_idemp_l. f_equal. lia.
  Qed.
  Lemma neg_0 : neg 0 = f0.
  Proof. apply (f_to_Z_inj HP). unfold neg. rewrite (pf_to_of _ _ HP), (pf_zero _ _ HP). apply Zmod_0_l. Qed.
  Lemma neg_wrap : fadd (neg 0) f1 = neg (Z.to_nat (p - 1)).
  Proof.
    pose proof (pf_p_ge_2 HP). apply (f_to_Z_inj HP). rewrite (pf_add _ _ HP). unfold neg. rewrite !(pf_to_of _ _ HP), (pf_one _ _ HP).
    rewrite Zplus_mod_idemp_l, Z2Nat.id by lia. replace (- Z.of_nat 0 + 1)%Z with (- (p - 1) + 1 * p)%Z by (cbn [Z.of_nat]; lia). apply Z_mod_plus_full.
  Qed.
  Lemma csum_formula n : forall j, (Z.of_nat n < p)%Z -> (Z.of_nat j < p)%Z ->
    (p * csum n (neg j) = (p - 2) ^ Z.of_nat n - (-2) ^ Z.of_nat n + p * ((-1) ^ Z.of_nat n * Z.of_nat (binom n j)))%Z.
  Proof.
    pose proof (pf_p_ge_2 HP) as Hp. induction n as [|n IH]; intros j Hn Hj.
    - unfold csum, number. cbn [vectors filter none forallb isum fold_right andb].
      destruct j as [|j].
      + rewrite neg_0, feqb_refl. cbn. lia.
      + rewrite feqb_false; [cbn; lia|]. intros E. apply (f_equal f_to_Z) in E. unfold neg in E. rewrite (pf_zero _ _ HP), (pf_to_of _ _ HP) in E.
        symmetry in E. apply Z.mod_opp_l_z in E; [|lia]. rewrite Z.mod_small in E by lia. lia.
    - rewrite csum_S. replace (Z.of_nat (S n)) with (Z.succ (Z.of_nat n)) in * by lia. rewrite !Z.pow_succ_r by lia.
      destruct j as [|j].
      + rewrite neg_wrap. pose proof (IH 0 ltac:(lia) ltac:(lia)) as I1. pose proof (IH (Z.to_nat (p - 1)) ltac:(lia) ltac:(lia)) as I2.
        rewrite (binom_big n (Z.to_nat (p - 1))) in I2 by lia. rewrite binom_0 in *. lia.
      + rewrite neg_S. pose proof (IH (S j) ltac:(lia) ltac:(lia)) as I1. pose proof (IH j ltac:(lia) ltac:(lia)) as I2.
        cbn [binom]. rewrite Nat2Z.inj_add. lia.
  Qed.
  Lemma neg_1 : neg 1 = fsub f0 f1.
  Proof. transitivity (fsub (fadd (neg 1) f1) f1); [ring|]. rewrite neg_S, neg_0. reflexivity. Qed.

  Lemma good_nz m : good m = true -> nz m = true.
  Proof.
    assert (N : forall x, none x = true -> nz x = true).
    { induction x as [|a x IH]; [reflexivity|]. rewrite none_cons. unfold nz. cbn [forallb]. destruct (feqb a f0); cbn [orb negb andb]; [discriminate|].
      destruct (feqb a f1); [discriminate|]. exact IH. }
    assert (O : forall x, one x = true -> nz x = true).
    { induction x as [|a x IH]; [discriminate|]. cbn [one]. unfold nz. cbn [forallb]. destruct (feqb a f0); cbn [negb andb]; [discriminate|].
      destruct (feqb a f1); [apply N|exact IH]. }
    unfold good. intros H. apply orb_true_iff in H. destruct H as [H|H]; [apply O, H|]. apply andb_true_iff in H. apply N, H.
  Qed.
  Lemma one_none m : one m = true -> none m = false.
  Proof.
    induction m as [|a m IH]; [discriminate|]. cbn [one]. rewrite none_cons. destruct (feqb a f0); [discriminate|]. destruct (feqb a f1); [reflexivity|]. exact IH.
  Qed.
  Lemma count_bad n : 1 <= n -> (Z.of_nat n < p)%Z -> n mod 2 = 0 -> (p * number p n (fun m => nz m && negb (good m)) = singular_number p n)%Z.
  Proof.
    intros H1 Hn He. pose proof (pf_p_ge_2 HP) as Hp.
    assert (E1 : number p n nz = (number p n good + number p n (fun m => nz m && negb (good m)))%Z).
    { rewrite (number_split n nz good). f_equal. apply number_ext. intros m. destruct (good m) eqn:G; [rewrite (good_nz m G); reflexivity|apply andb_false_r]. }
    assert (E2 : number p n good = (number p n one + number p n (fun m => none m && negb (feqb (isum m) (fsub f0 f1))))%Z).
    { rewrite (number_split n good one). f_equal; apply number_ext; intros m; unfold good; destruct (one m) eqn:O; cbn [orb andb negb]; try reflexivity.
      - apply andb_false_r.
      - rewrite (one_none m O). reflexivity.
      - apply andb_true_r. }
    assert (E3 : number p n none = (csum n (neg 1) + number p n (fun m => none m && negb (feqb (isum m) (fsub f0 f1))))%Z).
    { rewrite neg_1. apply number_split. }
    pose proof (csum_formula n 1 Hn ltac:(lia)) as E4. rewrite binom_1 in E4.
    assert (E5 : ((-1) ^ Z.of_nat n = 1)%Z /\ ((-2) ^ Z.of_nat n = 2 ^ Z.of_nat n)%Z).
    { assert (Ev : Z.of_nat n = (2 * Z.of_nat (n / 2))%Z) by (pose proof (Nat.div_mod n 2); lia). rewrite Ev. rewrite !Z.pow_mul_r by lia.
      replace ((-1) ^ 2)%Z with 1%Z by reflexivity. replace ((-2) ^ 2)%Z with (2 ^ 2)%Z by reflexivity. rewrite Z.pow_1_l by lia. split; reflexivity. }
    destruct E5 as [E5 E6]. rewrite E5, E6 in E4. rewrite count_nz in E1. rewrite count_one in E2. rewrite count_none in E3.
    unfold singular_number. cbv zeta. revert E1 E2 E3 E4.
    generalize (number p n good) (number p n (fun m => nz m && negb (good m))) (number p n (fun m => none m && negb (feqb (isum m) (fsub f0 f1)))) (csum n (neg 1)).
    intros g b c s. intros E1 E2 E3 E4.
    assert (Eb : b = ((p - 1) ^ Z.of_nat n - Z.of_nat n * (p - 2) ^ (Z.of_nat n - 1) - (p - 2) ^ Z.of_nat n + s)%Z) by lia. rewrite Eb, Z.mul_add_distr_l, E4. ring.
  Qed.

  (** ** which of them are singular *)
  Lemma int_row t (m x : nat -> F) i : i < t ->
    sumn t (fun j => fmul (np_int_matrix m i j) (x j)) = fadd (sumn t x) (fmul (fsub (m i) f1) (x i)).
  Proof.
    intros Hi. transitivity (sumn t (fun j => fadd (x j) (if j =? i then fmul (fsub (m i) f1) (x i) else f0))).
    - apply sumn_ext. intros j _. unfold np_int_matrix. destruct (Nat.eqb_spec i j) as [->|N]; [rewrite Nat.eqb_refl; ring|].
      rewrite (proj2 (Nat.eqb_neq j i)) by congruence. ring.
    - rewrite (sumn_add HF). f_equal. rewrite (sumn_single HF t i); [rewrite Nat.eqb_refl; reflexivity|exact Hi|].
      intros j _ N. rewrite (proj2 (Nat.eqb_neq j i)) by congruence. reflexivity.
  Qed.
  Lemma none_spec m : none m = true <-> forall i, i < length m -> nth i m f0 <> f0 /\ nth i m f0 <> f1.
  Proof.
    induction m as [|a m IH]; [split; [intros _ i Hi; cbn in Hi; lia|reflexivity]|]. rewrite none_cons. split.
    - intros H. destruct (feqb a f0 || feqb a f1) eqn:E; [discriminate|]. apply orb_false_iff in E. destruct E as [E0 E1].
      intros [|i] Hi; cbn [nth]; [split; intros ->; rewrite feqb_refl in *; discriminate|]. apply IH; [exact H|]. cbn [length] in Hi. lia.
    - intros H. destruct (H 0 ltac:(cbn; lia)) as [A B]. cbn [nth] in A, B. rewrite (feqb_false _ _ A), (feqb_false _ _ B). cbn [orb].
      apply IH. intros i Hi. apply (H (S i)). cbn [length]. lia.
  Qed.
  Lemma nz_spec m : nz m = true <-> forall i, i < length m -> nth i m f0 <> f0.
  Proof.
    unfold nz. induction m as [|a m IH]; [split; [intros _ i Hi; cbn in Hi; lia|reflexivity]|]. cbn [forallb]. rewrite andb_true_iff, IH. split.
    - intros [A H] [|i] Hi; cbn [nth]; [intros ->; rewrite feqb_refl in A; discriminate|]. apply H. cbn [length] in Hi. lia.
    - intros H. split; [rewrite (feqb_false a f0); [reflexivity|exact (H 0 ltac:(cbn; lia))]|]. intros i Hi. apply (H (S i)). cbn [length]. lia.
  Qed.
  Lemma one_spec m : one m = true -> exists k, k < length m /\ nth k m f0 = f1 /\ forall i, i < length m -> i <> k -> nth i m f0 <> f0 /\ nth i m f0 <> f1.
  Proof.
    induction m as [|a m IH]; [discriminate|]. cbn [one]. destruct (feqb a f0) eqn:E0; [discriminate|]. destruct (feqb a f1) eqn:E1.
    - intros H. exists 0. cbn [nth length]. split; [lia|]. split; [now apply (ff_eqb _ HF)|]. intros [|i] Hi N; [contradiction|].
      apply (proj1 (none_spec m) H). lia.
    - intros H. destruct (IH H) as [k [A [B C]]]. exists (S k). cbn [nth length]. split; [lia|]. split; [exact B|]. intros [|i] Hi N; cbn [nth].
      + split; intros ->; rewrite feqb_refl in *; discriminate.
      + apply C; [lia|congruence].
  Qed.
  (** otherwise two entries are one *)
  Lemma two_ones m : nz m = true -> none m = false -> one m = false -> exists i j, i < length m /\ j < length m /\ i <> j /\ nth i m f0 = f1 /\ nth j m f0 = f1.
  Proof.
    assert (G : forall l, nz l = true -> none l = false -> exists i, i < length l /\ nth i l f0 = f1).
    { induction l as [|a l IH]; [intros _ H; discriminate|]. rewrite none_cons. unfold nz. cbn [forallb]. destruct (feqb a f0); [discriminate|]. cbn [negb andb orb].
      destruct (feqb a f1) eqn:E; [intros _ _; exists 0; split; [cbn; lia|now apply (ff_eqb _ HF)]|].
      intros A B. destruct (IH A B) as [i [Hi Ei]]. exists (S i). split; [cbn [length]; lia|exact Ei]. }
    induction m as [|a m IH]; [intros _ H; discriminate|]. rewrite none_cons. unfold nz. cbn [forallb one]. destruct (feqb a f0); [discriminate|]. cbn [negb andb orb].
    destruct (feqb a f1) eqn:E; intros A B C.
    - destruct (G m A C) as [j [Hj Ej]]. exists 0, (S j). cbn [nth length]. repeat split; [lia|lia|lia|now apply (ff_eqb _ HF)|exact Ej].
    - destruct (IH A B C) as [i [j [Hi [Hj [N [Ei Ej]]]]]]. exists (S i), (S j). cbn [nth length]. repeat split; [lia|lia|lia|exact Ei|exact Ej].
  Qed.
  Lemma isum_spec m : isum m = sumn (length m) (fun i => finv (fsub (nth i m f0) f1)).
  Proof. induction m as [|a m IH]; [reflexivity|]. cbn [length]. rewrite (sumn_first HF). cbn [nth isum fold_right]. fold (isum m). rewrite IH. reflexivity. Qed.

  Lemma mul_zero (u v : F) : u <> f0 -> fmul u v = f0 -> v = f0.
  Proof. intros N H. transitivity (fmul (fmul (finv u) u) v); [rewrite (ff_inv _ HF _ N); ring|]. transitivity (fmul (finv u) (fmul u v)); [ring|]. rewrite H. ring. Qed.
  Lemma sub_one (a : F) : a <> f1 -> fsub a f1 <> f0.
  Proof. intros N E. apply N, sub_zero, E. Qed.

  Theorem good_nonsingular m : 1 <= length m -> nz m = true -> (good m = true <-> nonsingular (length m) (np_int_matrix (fun i => nth i m f0))).
  Proof.
    intros Ht Hnz. set (t := length m) in *. set (v := fun i => fsub (nth i m f0) f1).
    destruct (one m) eqn:O; [|destruct (none m) eqn:N].
    - split; [|intros _; unfold good; rewrite O; reflexivity]. intros _ x H.
      destruct (one_spec m O) as [k [Hk [Ek Hv]]].
      assert (S0 : sumn t x = f0).
      { pose proof (H k Hk) as E. rewrite int_row in E by exact Hk. cbv beta in E. rewrite Ek in E. rewrite <- E. ring. }
      assert (X : forall i, i < t -> i <> k -> x i = f0).
      { intros i Hi Ni. pose proof (H i Hi) as E. rewrite int_row, S0 in E by exact Hi. cbv beta in E.
        apply (mul_zero (fsub (nth i m f0) f1)); [apply sub_one, Hv; assumption|]. transitivity (fadd f0 (fmul (fsub (nth i m f0) f1) (x i))); [ring|exact E]. }
      intros j Hj. destruct (Nat.eq_dec j k) as [->|Nj]; [|apply X; assumption]. rewrite <- S0. symmetry. apply (sumn_single HF t k x Hk). intros i Hi Ni. apply X; [exact Hi|congruence].
    - assert (Hv : forall i, i < t -> v i <> f0) by (intros i Hi; apply sub_one, (proj1 (none_spec m) N i Hi)).
      assert (IS : isum m = sumn t (fun i => finv (v i))) by apply isum_spec.
      unfold good. rewrite O, N. cbn [orb andb]. destruct (fdec (isum m) (fsub f0 f1)) as [E|E].
      + rewrite E, feqb_refl. cbn [negb]. split; [discriminate|]. intros H. exfalso.
        assert (X : finv (v 0) = f0).
        { apply (H (fun i => finv (v i))); [|lia]. intros i Hi. rewrite int_row by exact Hi. cbv beta. rewrite <- IS, E. fold (v i).
          replace (fmul (v i) (finv (v i))) with (fmul (finv (v i)) (v i)) by ring. rewrite (ff_inv _ HF _ (Hv i Hi)). ring. }
        apply (inv_nonzero (v 0)); [apply Hv; lia|exact X].
      + rewrite (feqb_false _ _ E). cbn [negb]. split; [|reflexivity]. intros _ x H.
        set (sx := sumn t x). assert (X : forall i, i < t -> x i = fmul (fsub f0 sx) (finv (v i))).
        { intros i Hi. pose proof (H i Hi) as K. rewrite int_row in K by exact Hi. cbv beta in K. fold sx in K. fold (v i) in K.
          transitivity (fmul (fmul (finv (v i)) (v i)) (x i)); [rewrite (ff_inv _ HF _ (Hv i Hi)); ring|].
          transitivity (fmul (finv (v i)) (fsub (fadd sx (fmul (v i) (x i))) sx)); [ring|]. rewrite K. ring. }
        assert (S0 : sx = f0).
        { assert (K : sx = fmul (fsub f0 sx) (isum m)). { rewrite IS, <- (sumn_mul_l HF). apply sumn_ext. exact X. }
          apply (mul_zero (fsub (isum m) (fsub f0 f1))); [intros C; apply E, sub_zero, C|].
          transitivity (fsub sx (fmul (fsub f0 sx) (isum m))); [ring|]. rewrite <- K. ring. }
        intros j Hj. rewrite (X j Hj), S0. ring.
    - unfold good. rewrite O, N. cbn [orb andb]. split; [discriminate|]. intros H. exfalso.
      destruct (two_ones m Hnz N O) as [i [j [Hi [Hj [Nij [Ei Ej]]]]]].
      set (x := fun k => if k =? i then (f1 : F) else if k =? j then fsub f0 f1 else f0).
      assert (Hx : x i = f0); [|unfold x in Hx; rewrite Nat.eqb_refl in Hx; apply H01; congruence].
      apply (H x); [|exact Hi]. intros k Hk. rewrite int_row by exact Hk. cbv beta.
      assert (S0 : sumn t x = f0).
      { transitivity (sumn t (fun k => fadd (if k =? i then f1 else f0) (if k =? j then fsub f0 f1 else f0))).
        - apply sumn_ext. intros l _. unfold x. destruct (Nat.eqb_spec l i) as [->|]; [rewrite (proj2 (Nat.eqb_neq i j) Nij)|destruct (l =? j)]; ring.
        - rewrite (sumn_add HF), (sumn_single HF t i), (sumn_single HF t j); try assumption; rewrite ?Nat.eqb_refl; [ring| |].
          + intros l _ Nl. rewrite (proj2 (Nat.eqb_neq l j)) by congruence. reflexivity.
          + intros l _ Nl. rewrite (proj2 (Nat.eqb_neq l i)) by congruence. reflexivity. }
      rewrite S0. unfold x. destruct (Nat.eqb_spec k i) as [->|Nk]; [rewrite Ei; ring|]. destruct (Nat.eqb_spec k j) as [->|Nk']; [rewrite Ej; ring|ring].
  Qed.

  (** a diagonal that is not refuted is accepted *)
  Lemma good_nonsingular' t m : nonzero_diagonal t m -> ~ ~ invertible t (np_int_matrix (fun i => nth i m f0)) -> nonsingular t (np_int_matrix (fun i => nth i m f0)).
  Proof.
    intros [L A] N. destruct t as [|t]; [intros x _ j Hj; lia|]. rewrite <- L in *. apply nz_spec in A. apply (good_nonsingular m ltac:(lia) A).
    destruct (good m) eqn:G; [reflexivity|]. exfalso. apply N. intros C. apply (invertible_nonsingular HF) in C. apply (good_nonsingular m ltac:(lia) A) in C. congruence.
  Qed.
  Theorem singular_count t : 1 <= t -> (Z.of_nat t < p)%Z -> t mod 2 = 0 ->
    exists L : list (list F), lists_singular t L /\ (p * Z.of_nat (length L) = singular_number p t)%Z.
  Proof.
    intros H1 Ht He. exists (filter (fun m => nz m && negb (good m)) (vectors p t)). split; [split|apply (count_bad t H1 Ht He)].
    - apply NoDup_filter, (vectors_nodup HP).
    - intros m. rewrite filter_In, (vectors_in HP), andb_true_iff, negb_true_iff. unfold nonzero_diagonal.
      split.
      + intros [L [A B]]. split; [split; [exact L|]; rewrite <- L; apply nz_spec, A|]. intros C. apply (invertible_nonsingular HF) in C.
        rewrite <- L in C. apply (good_nonsingular m ltac:(lia) A) in C. congruence.
      + intros [[L A] B]. split; [exact L|]. rewrite <- L in A. apply nz_spec in A. split; [exact A|]. destruct (good m) eqn:G; [|reflexivity].
        exfalso. apply B. apply (nonsingular_invertible HF). rewrite <- L. apply (good_nonsingular m ltac:(lia) A). exact G.
  Qed.
End S.

Section Code.
  Context {F : Type} {Fo : FOps F} {p : Z} (HP : is_prime_field Fo p).
  Let HF := prime_field_is_field HP.
  Add Ring FRSingC : (ff_ring _ HF).

  Theorem diagonal_count t : exists L : list (list F), NoDup L /\ (forall m, In m L <-> nonzero_diagonal t m) /\ Z.of_nat (length L) = ((p - 1) ^ Z.of_nat t)%Z.
  Proof.
    exists (filter nz (vectors p t)). split; [apply NoDup_filter, (vectors_nodup HP)|]. split; [|apply (count_nz HP t)].
    intros m. rewrite filter_In, (nz_spec HP), (vectors_in HP). unfold nonzero_diagonal. split; intros [A B]; (split; [exact A|]); intros i Hi; apply B; lia.
  Qed.

  Theorem np_bijective_draws dbg fuel rng t d rf rp (P : NeptuneParams F) L :
    np_new dbg fuel rng t d rf rp = Ok P -> (N.of_nat rf + N.of_nat rp < usize_mod)%N -> 2 <= t -> lists_singular t L ->
    (bijective_on t (np_permutation dbg P) <->
     invertible t (entry (np_m_e P)) /\ (rf = 0 \/ p <> 5%Z) /\
     (rp = 0 \/ (~ In (map (fun a => fadd a f1) (np_mu P)) L /\ Z.gcd (Z.of_nat d) (p - 1) = 1%Z))).
  Proof.
    intros H Hov Ht [_ HL]. rewrite (ProofNeptuneBij.np_bijective_iff HP dbg fuel rng t d rf rp P H Hov Ht).
    destruct (ProofNeptuneFin.np_new_contents HF dbg fuel rng t d rf rp P H Hov) as (_ & _ & _ & _ & _ & _ & _ & _ & _ & [Lm Hm] & _).
    set (m := map (fun a => fadd a f1) (np_mu P)).
    assert (E : forall i, i < t -> nth i m f0 = fadd (nth i (np_mu P) f0) f1).
    { intros i Hi. unfold m. rewrite (nth_indep _ f0 (fadd f0 f1)) by (rewrite map_length, Lm; exact Hi). apply (map_nth (fun a => fadd a f1)). }
    assert (D : nonzero_diagonal t m).
    { split; [unfold m; rewrite map_length; exact Lm|]. intros i Hi. rewrite (E i Hi). apply Hm, Hi. }
    assert (Q : invertible t (np_int_matrix (fun i => fadd (nth i (np_mu P) f0) f1)) <-> ~ In m L).
    { assert (W : nonsingular t (np_int_matrix (fun i => fadd (nth i (np_mu P) f0) f1)) <-> nonsingular t (np_int_matrix (fun i => nth i m f0))).
      { unfold nonsingular. split; intros K x Hx; apply K; intros i Hi; (etransitivity; [|exact (Hx i Hi)]); apply sumn_ext; intros j Hj; unfold np_int_matrix; destruct (i =? j); try reflexivity.
        - rewrite (E i Hi). reflexivity.
        - rewrite (E i Hi). reflexivity. }
      split.
      - intros I In'. apply HL in In'. apply (proj2 In'). apply (nonsingular_invertible HF), W, (invertible_nonsingular HF), I.
      - intros N. apply (nonsingular_invertible HF), W. apply (good_nonsingular' HP t m D).
        intros C. apply N, HL. split; [exact D|exact C]. }
    rewrite Q. reflexivity.
  Qed.

  Theorem np_every_diagonal dbg fuel t d rf rp (m : list F) : (N.of_nat rf + N.of_nat rp < usize_mod)%N -> 1 <= fuel ->
    In d [3; 5; 7] -> rf mod 2 = 0 -> t mod 2 = 0 -> nonzero_diagonal t m ->
    exists rng P, np_new dbg fuel rng t d rf rp = Ok P /\ map (fun a => fadd a f1) (np_mu P) = m.
  Proof.
    intros Hov Hf Hd He Hev [Lm Hm]. set (off := (rf + rp) * t + np_mat_draws t). set (rng := fun k => nth (k - off) (m ++ [f1]) f1).
    assert (R : forall k, rng k <> f0).
    { intros k. unfold rng. destruct (Nat.lt_ge_cases (k - off) t) as [A|A].
      - rewrite app_nth1 by lia. rewrite (nth_indep _ f1 f0) by lia. apply Hm, A.
      - rewrite app_nth2 by lia. destruct (k - off - length m) as [|[|?]]; apply (ff_one_neq_zero _ HF). }
    destruct (proj2 (ProofNeptuneFin.np_new_outcome HF dbg fuel rng t d rf rp Hov)) as [P H].
    - intros q. exists 0. split; [lia|apply R].
    - repeat split; assumption.
    - exists rng, P. split; [exact H|].
      destruct (ProofNeptuneParams.np_new_draws HF dbg fuel rng t d rf rp P H Hov) as [q [Hq [L [E _]]]]. fold off in Hq, E.
      rewrite (filter_every (fun k => negb (feqb (rng k) f0))) in E by (intros k _; rewrite (feqb_false HP _ _ (R k)); reflexivity).
      rewrite E in L. rewrite map_length, seq_length in L. rewrite E, map_map. rewrite L. apply (nth_ext _ _ f1 f1); rewrite map_length, seq_length; [symmetry; exact Lm|].
      intros i Hi. rewrite (nth_indep _ f1 (fadd (fsub (rng 0) f1) f1)) by (rewrite map_length, seq_length; exact Hi).
      rewrite (map_nth (fun k => fadd (fsub (rng k) f1) f1) _ 0). rewrite seq_nth by exact Hi. unfold rng. replace (off + i - off) with i by lia.
      rewrite app_nth1 by lia. ring.
  Qed.
End Code.

(** the fraction of singular diagonals is between 1/(2p) and 2/p *)
Section Fraction.
Local Open Scope Z_scope.
Let R (x : Z) (n : nat) : Z := (x + 1) ^ Z.of_nat n - x ^ Z.of_nat n - Z.of_nat n * x ^ (Z.of_nat n - 1).
Lemma R_step : forall x n, (1 <= n)%nat -> R x (S n) = (x + 1) * R x n + Z.of_nat n * x ^ (Z.of_nat n - 1).
Proof.
  intros x n Hn. unfold R. replace (Z.of_nat (S n)) with (Z.succ (Z.of_nat n)) by lia. rewrite !Z.pow_succ_r by lia.
  replace (Z.succ (Z.of_nat n) - 1) with (Z.of_nat n) by lia.
  assert (E : x ^ Z.of_nat n = x * x ^ (Z.of_nat n - 1)) by (rewrite <- Z.pow_succ_r by lia; f_equal; lia).
  rewrite E. ring.
Qed.
Lemma R_bounds : forall x m, 0 <= x ->
  0 <= R x (S (S m)) /\ 2 * R x (S (S m)) <= (Z.of_nat m + 2) * (Z.of_nat m + 1) * (x + 1) ^ Z.of_nat m.
Proof.
  intros x m Hx. induction m as [|m [IH1 IH2]].
  - unfold R. change (Z.of_nat 2) with 2. change (Z.of_nat 0) with 0. change (2 - 1) with 1. rewrite !Z.pow_2_r, Z.pow_1_r, Z.pow_0_r. lia.
  - rewrite R_step by lia. replace (Z.of_nat (S (S m)) - 1) with (Z.of_nat (S m)) by lia.
    assert (A : 0 <= x ^ Z.of_nat (S m)) by (apply Z.pow_nonneg; lia).
    assert (B : x ^ Z.of_nat (S m) <= (x + 1) ^ Z.of_nat (S m)) by (apply Z.pow_le_mono_l; lia).
    assert (C : (x + 1) ^ Z.of_nat (S m) = (x + 1) * (x + 1) ^ Z.of_nat m) by (replace (Z.of_nat (S m)) with (Z.succ (Z.of_nat m)) by lia; apply Z.pow_succ_r; lia).
    set (r := R x (S (S m))) in *. set (y := x ^ Z.of_nat (S m)) in *. set (z := (x + 1) ^ Z.of_nat (S m)) in *. set (w := (x + 1) ^ Z.of_nat m) in *.
    replace (Z.of_nat (S (S m))) with (Z.of_nat m + 2) by lia. set (k := Z.of_nat m) in *. assert (0 <= k) by (unfold k; lia).
    split; [nia|].
    assert (D : (x + 1) * (2 * r) <= (x + 1) * ((k + 2) * (k + 1) * w)) by (apply Z.mul_le_mono_nonneg_l; lia).
    assert (G : 2 * ((k + 2) * y) <= 2 * ((k + 2) * z)) by nia.
    replace (Z.of_nat (S m)) with (k + 1) by (unfold k; lia).
    replace ((k + 1 + 2) * (k + 1 + 1) * z) with ((x + 1) * ((k + 2) * (k + 1) * w) + 2 * ((k + 2) * z)) by (rewrite C; ring). lia.
Qed.
Theorem fraction : forall p t, (2 <= t)%nat -> Z.of_nat t * Z.of_nat t + 2 <= p ->
  (p - 1) ^ Z.of_nat t < 2 * singular_number p t /\ singular_number p t < 2 * (p - 1) ^ Z.of_nat t.
Proof.
  intros p t Ht Hp. destruct t as [|[|m]]; try lia. set (n := Z.of_nat (S (S m))) in *. set (x := p - 2).
  assert (Hn : 2 <= n) by (unfold n; lia). assert (Hx : n * n <= x) by (unfold x; lia).
  destruct (R_bounds x m ltac:(nia)) as [B1 B2].
  assert (ES : singular_number p (S (S m)) = (x + 2) * (R x (S (S m)) + n) + x ^ n - 2 ^ n).
  { unfold singular_number, R. cbn zeta. fold n. unfold x. replace (p - 2 + 2) with p by lia. replace (p - 2 + 1) with (p - 1) by lia. ring. }
  rewrite ES. clear ES. replace (p - 1) with (x + 1) by (unfold x; lia).
  assert (ER : (x + 1) ^ n = R x (S (S m)) + x ^ n + n * x ^ (n - 1)) by (unfold R; fold n; lia).
  set (r := R x (S (S m))) in *.
  assert (EX : x ^ n = x * x ^ (n - 1)) by (rewrite <- Z.pow_succ_r by lia; f_equal; lia).
  assert (EQ : (x + 1) ^ n = (x + 1) * (x + 1) * (x + 1) ^ Z.of_nat m).
  { replace n with (Z.succ (Z.succ (Z.of_nat m))) by (unfold n; lia). rewrite !Z.pow_succ_r by lia. ring. }
  assert (P1 : 2 * 4 ^ (n - 1) <= 2 * x ^ (n - 1)) by (apply Z.mul_le_mono_nonneg_l; [lia|]; apply Z.pow_le_mono_l; nia).
  assert (P2 : 2 * 2 ^ n <= 2 * 4 ^ (n - 1)).
  { apply Z.mul_le_mono_nonneg_l; [lia|]. change 4 with (2 ^ 2). rewrite <- Z.pow_mul_r by lia. apply Z.pow_le_mono_r; lia. }
  assert (P3 : 0 < x ^ (n - 1)) by (apply Z.pow_pos_nonneg; nia).
  assert (P4 : 1 <= (x + 1) ^ Z.of_nat m) by (pose proof (Z.pow_pos_nonneg (x + 1) (Z.of_nat m)); nia).
  assert (P5 : 0 < 2 ^ n) by (apply Z.pow_pos_nonneg; lia).
  assert (P6 : x ^ n <= (x + 1) ^ n) by (apply Z.pow_le_mono_l; nia).
  replace ((Z.of_nat m + 2) * (Z.of_nat m + 1)) with (n * (n - 1)) in B2 by (unfold n; lia).
  set (w := (x + 1) ^ Z.of_nat m) in *. set (y := x ^ (n - 1)) in *. set (u := 2 ^ n) in *. set (X := x ^ n) in *. set (Q := (x + 1) ^ n) in *.
  clearbody w y u X Q r n x. clear Hp.
  split.
  - assert (H1 : n * n * y <= x * y) by (apply Z.mul_le_mono_nonneg_r; lia).
    assert (H2 : 2 * n * y <= n * n * y) by (apply Z.mul_le_mono_nonneg_r; nia).
    assert (H3 : 2 * y <= n * y) by nia. assert (H4 : 0 <= (2 * x + 3) * r) by nia. assert (H5 : 0 < n * (x + 2)) by nia.
    rewrite ER, EX. lia.
  - assert (H1 : (x + 2) * (2 * r) <= (x + 2) * (n * (n - 1) * w)) by (apply Z.mul_le_mono_nonneg_l; nia).
    assert (H2 : (x + 2) * (n * (n - 1)) <= (x + 1) * (x + 1)) by nia.
    assert (H3 : (x + 2) * (n * (n - 1)) * w <= (x + 1) * (x + 1) * w) by (apply Z.mul_le_mono_nonneg_r; lia).
    assert (H4 : 2 * (n * (x + 2)) <= (x + 1) * (x + 1)) by nia.
    assert (H5 : (x + 1) * (x + 1) <= (x + 1) * (x + 1) * w) by nia.
    lia.
Qed.
End Fraction.
From Verif Require Import ModelFields.
Theorem shipped_fraction : Forall (fun i => (Z.of_nat (ni_t i) < ni_p i)%Z /\ ni_t i mod 2 = 0 /\
  ((ni_p i - 1) ^ Z.of_nat (ni_t i) < 2 * singular_number (ni_p i) (ni_t i))%Z /\
  (singular_number (ni_p i) (ni_t i) < 2 * (ni_p i - 1) ^ Z.of_nat (ni_t i))%Z) np_instances.
Proof.
  assert (H : Forall (fun i => (Z.of_nat (ni_t i) < ni_p i)%Z /\ ni_t i mod 2 = 0 /\ 2 <= ni_t i /\ (Z.of_nat (ni_t i) * Z.of_nat (ni_t i) + 2 <= ni_p i)%Z) np_instances).
  { unfold np_instances. repeat (apply Forall_cons || apply Forall_nil); cbn [ni_t ni_p np_inst]; (split; [vm_compute; reflexivity|split; [reflexivity|split; [lia|vm_compute; discriminate]]]). }
  eapply Forall_impl; [|exact H]. intros i (H1 & H2 & H3 & H4). repeat split; auto; apply fraction; auto.
Qed.
