(** * PolyMod: arithmetic modulo a polynomial that annihilates an operator, and the computed certificate for [Rabin] *)
From Coq Require Import Znumtheory.
From Verif Require Import Base Field Spec SpecMinPoly FieldPow LinOp Rabin Freshman.
Local Open Scope nat_scope.

Section Compute.
  Context {F : Type} {Fo : FOps F}.

  (** a * b + c, coefficientwise *)
  Definition paxpy (a : F) (b c : list F) : list F := map (fun '(x, y) => fadd (fmul a x) y) (combine b c).
  (** products modulo the monic polynomial with lower coefficients [f] *)
  Fixpoint pmulm (f a b : list F) : list F :=
    match a with [] => repeat f0 (length b) | c :: a' => paxpy c b (xmod f (pmulm f a' b)) end.
  Definition pone (t : nat) : list F := f1 :: repeat f0 (t - 1).
  Definition pvar (t : nat) : list F := f0 :: f1 :: repeat f0 (t - 2).
  (** x^n *)
  Fixpoint xpow (f : list F) (n : positive) : list F :=
    match n with
    | xH => pvar (length f)
    | xO m => let a := xpow f m in pmulm f a a
    | xI m => let a := xpow f m in xmod f (pmulm f a a)
    end.
  (** b^n *)
  Fixpoint ppow (f b : list F) (n : positive) : list F :=
    match n with
    | xH => b
    | xO m => let a := ppow f b m in pmulm f a a
    | xI m => let a := ppow f b m in pmulm f (pmulm f a a) b
    end.
  (** the powers 1, h, ..., h^(n-1), times q *)
  Fixpoint ppowers (f h q : list F) (n : nat) : list (list F) :=
    match n with O => [] | S m => q :: ppowers f h (pmulm f h q) m end.
  (** c_0 Q_0 + c_1 Q_1 + ... *)
  Fixpoint pcomb (t : nat) (Q : list (list F)) (c : list F) : list F :=
    match Q, c with q :: Q', x :: c' => paxpy x q (pcomb t Q' c') | _, _ => repeat f0 t end.

  Fixpoint leqb (a b : list F) : bool :=
    match a, b with
    | [], [] => true
    | x :: a', y :: b' => if feqb x y then leqb a' b' else false
    | _, _ => false
    end.

  Definition rabin_b (f : list F) (p L : positive) (qs : list (nat * list F * list F)) : bool :=
    let t := length f in
    let Q := ppowers f (xpow f p) (pone t) t in
    let H := fun n => iter n (pcomb t Q) (pvar t) in
    if feqb (hd f0 f) f0 then false else
    if leqb (H t) (pvar t) then
      forallb (fun '(q, y, r) =>
        if negb (length y =? t) then false else
        if negb (length r =? t) then false else
        if leqb (xmod f y) (H (t / q)) then
          leqb (pmulm f (psubs f1 (ppow f y L) (pone t)) r) (pone t)
        else false) qs
    else false.

  Definition divisors_b (t : nat) (qs : list nat) : bool :=
    forallb (fun d => if t mod d =? 0 then existsb (fun q => (2 <=? q) && (d mod q =? 0)) qs else true) (seq 2 (t - 1)).
  Definition multiple_b (L : positive) (n : nat) : bool :=
    forallb (fun i => (Zpos L mod Z.of_nat i =? 0)%Z) (seq 1 n).
End Compute.

Lemma divisors_ok t qs : 2 <= t -> divisors_b t qs = true ->
  forall q, prime (Z.of_nat q) -> Nat.divide q t -> In q qs.
Proof.
  intros Ht H q Pq [k Hk]. pose proof (prime_ge_2 _ Pq) as Q2. unfold divisors_b in H. rewrite forallb_forall in H.
  assert (q <= t) by (destruct k; cbn in Hk; lia).
  specialize (H q). rewrite in_seq in H. specialize (H ltac:(lia)).
  rewrite Hk, Nat.mod_mul in H by lia. cbn [Nat.eqb] in H. apply existsb_exists in H. destruct H as [r [Hr E]].
  apply andb_true_iff in E. destruct E as [E1 E2]. apply Nat.leb_le in E1. apply Nat.eqb_eq in E2.
  apply Nat.mod_divide in E2; [|lia]. destruct E2 as [j Hj].
  assert (D : (Z.of_nat r | Z.of_nat q)%Z) by (exists (Z.of_nat j); lia).
  apply (prime_divisors _ Pq) in D. replace q with r by lia. exact Hr.
Qed.

Lemma multiple_ok L n i : multiple_b L n = true -> 1 <= i <= n -> exists m, Pos.to_nat L = m * i.
Proof.
  intros H Hi. unfold multiple_b in H. rewrite forallb_forall in H. specialize (H i). rewrite in_seq in H. specialize (H ltac:(lia)).
  apply Z.eqb_eq in H. apply Z.mod_divide in H; [|lia]. destruct H as [m Hm]. exists (Z.to_nat m). nia.
Qed.

Section Correct.
  Context {F : Type} {Fo : FOps F} {p : Z} (HP : is_prime_field Fo p).
  Let HF : is_field Fo := prime_field_is_field HP.
  Add Ring FringPM : (ff_ring _ HF).

  Lemma leqb_true (a b : list F) : leqb a b = true -> a = b.
  Proof.
    revert b. induction a as [|x a IH]; intros [|y b] H; try discriminate; [reflexivity|]. cbn in H.
    destruct (feqb x y) eqn:E; [|discriminate]. apply (ff_eqb _ HF) in E. f_equal; [exact E|apply IH, H].
  Qed.
  Lemma paxpy_length a (b c : list F) n : length b = n -> length c = n -> length (paxpy a b c) = n.
  Proof. intros E1 E2. unfold paxpy. rewrite map_length, combine_length. lia. Qed.

  Context {V : Type} {vz : V} {vadd : V -> V -> V} {vsc : F -> V -> V} (HV : is_module Fo vz vadd vsc).
  Context {M : V -> V} (HM : is_linear vadd vsc M).
  Notation act := (act (vz := vz) (vadd := vadd) (vsc := vsc) (A := M)).

  Lemma act_paxpy a : forall (b c : list F) v, length b = length c -> act (paxpy a b c) v = vadd (vsc a (act b v)) (act c v).
  Proof.
    induction b as [|x b IH]; intros [|y c] v H; try discriminate; cbn [paxpy combine map LinOp.act].
    - rewrite (vsc_z HF HV), (vm_0 _ _ _ _ HV). reflexivity.
    - fold (paxpy a b c). rewrite IH by (cbn in H; lia).
      rewrite (proj1 HM), (proj2 HM), (vm_scv _ _ _ _ HV), (vm_scadd _ _ _ _ HV), (vm_scmul _ _ _ _ HV). apply (vadd_swap HF HV).
  Qed.

  Context {f : list F} {t : nat} (Ht : 2 <= t) (Hf : length f = t) (Hkill : forall v, act (f ++ [f1]) v = vz).

  Lemma xmod_len c : length c = t -> length (xmod f c) = t.
  Proof. intros H. rewrite xmod_length; [exact Hf|lia|intros ->; cbn in H; lia]. Qed.
  Lemma xmod_act c v : length c = t -> act (xmod f c) v = M (act c v).
  Proof. intros H. apply (act_xmod HF HV HM); [lia|intros ->; cbn in H; lia|apply Hkill]. Qed.

  Lemma pmulm_len a b : length b = t -> length (pmulm f a b) = t.
  Proof.
    intros Hb. induction a as [|c a IH]; cbn [pmulm]; [rewrite repeat_length; exact Hb|].
    apply paxpy_length; [exact Hb|]. apply xmod_len, IH.
  Qed.
  Lemma pmulm_act a b v : length b = t -> act (pmulm f a b) v = act a (act b v).
  Proof.
    intros Hb. induction a as [|c a IH]; cbn [pmulm LinOp.act]; [apply (act_zeros HF HV HM)|].
    rewrite act_paxpy by (rewrite xmod_len by (apply pmulm_len, Hb); exact Hb).
    rewrite xmod_act by (apply pmulm_len, Hb). rewrite IH. reflexivity.
  Qed.
  Lemma pone_len : length (pone (F := F) t) = t.
  Proof. unfold pone. cbn. rewrite repeat_length. lia. Qed.
  Lemma pone_act v : act (pone t) v = v.
  Proof. unfold pone. cbn [LinOp.act]. rewrite (act_zeros HF HV HM), (lin_z HF HV HM), (vadd_0_r HF HV). apply (vm_sc1 _ _ _ _ HV). Qed.
  Lemma pvar_len : length (pvar (F := F) t) = t.
  Proof. unfold pvar. cbn. rewrite repeat_length. lia. Qed.
  Lemma pvar_act v : act (pvar t) v = M v.
  Proof.
    unfold pvar. cbn [LinOp.act]. rewrite (act_zeros HF HV HM), (lin_z HF HV HM), (vadd_0_r HF HV), (vm_sc0 _ _ _ _ HV), (vm_0 _ _ _ _ HV).
    rewrite (vm_sc1 _ _ _ _ HV). reflexivity.
  Qed.

  Lemma xpow_spec n : length (xpow f n) = t /\ forall v, act (xpow f n) v = iter (Pos.to_nat n) M v.
  Proof.
    induction n as [n [L IH]|n [L IH]|]; cbn [xpow].
    - split; [apply xmod_len, pmulm_len, L|]. intros v. rewrite xmod_act by (apply pmulm_len, L).
      rewrite pmulm_act by exact L. rewrite !IH. rewrite <- iter_add.
      replace (Pos.to_nat n~1) with (S (Pos.to_nat n + Pos.to_nat n)) by lia. reflexivity.
    - split; [apply pmulm_len, L|]. intros v. rewrite pmulm_act by exact L. rewrite !IH. rewrite <- iter_add. f_equal. lia.
    - rewrite Hf. split; [apply pvar_len|]. intros v. rewrite pvar_act. reflexivity.
  Qed.
  Lemma ppow_spec b n : length b = t -> length (ppow f b n) = t /\ forall v, act (ppow f b n) v = iter (Pos.to_nat n) (act b) v.
  Proof.
    intros Hb. induction n as [n [L IH]|n [L IH]|]; cbn [ppow].
    - split; [apply pmulm_len, Hb|]. intros v. rewrite pmulm_act by exact Hb. rewrite pmulm_act by exact L.
      rewrite !IH. rewrite <- iter_add, iter_shift.
      replace (Pos.to_nat n~1) with (S (Pos.to_nat n + Pos.to_nat n)) by lia. reflexivity.
    - split; [apply pmulm_len, L|]. intros v. rewrite pmulm_act by exact L. rewrite !IH. rewrite <- iter_add. f_equal. lia.
    - split; [exact Hb|]. intros v. reflexivity.
  Qed.

  (** combining the powers of [h] applies a polynomial to the operator [h(M)] *)
  Lemma pcomb_spec h : length h = t -> forall n q c, length q = t -> length c <= n ->
    length (pcomb t (ppowers f h q n) c) = t /\
    forall v, act (pcomb t (ppowers f h q n) c) v = LinOp.act (vz := vz) (vadd := vadd) (vsc := vsc) (A := act h) c (act q v).
  Proof.
    intros Hh. induction n as [|n IH]; intros q c Hq Hc.
    - destruct c; [|cbn in Hc; lia]. cbn. split; [apply repeat_length|]. intros v. apply (act_zeros HF HV HM).
    - destruct c as [|x c]; cbn [ppowers pcomb].
      + split; [apply repeat_length|]. intros v. apply (act_zeros HF HV HM).
      + destruct (IH (pmulm f h q) c) as [L E]; [apply pmulm_len, Hq|cbn in Hc; lia|].
        split; [apply paxpy_length; assumption|]. intros v. rewrite act_paxpy by lia. cbn [LinOp.act]. f_equal.
        rewrite E, pmulm_act by exact Hq. apply (act_A HF HV (act_linear HF HV HM h)).
  Qed.

  Context {pp : positive} (Hp : p = Zpos pp).
  Let Q := ppowers f (xpow f pp) (pone t) t.
  Let H n := iter n (pcomb t Q) (pvar t).

  Lemma frob_spec n : length (H n) = t /\ forall v, act (H n) v = iter (Z.to_nat p ^ n) M v.
  Proof.
    destruct (xpow_spec pp) as [Lx Ex]. assert (Ep : Pos.to_nat pp = Z.to_nat p) by lia. rewrite Ep in Ex.
    induction n as [|n [L IH]]; unfold H; cbn [iter].
    - split; [apply pvar_len|]. intros v. rewrite pvar_act. reflexivity.
    - fold (H n). destruct (pcomb_spec (xpow f pp) Lx t (pone t) (H n)) as [L2 E2]; [apply pone_len|lia|]. fold Q in L2, E2.
      split; [exact L2|]. intros v. rewrite E2, pone_act.
      transitivity (LinOp.act (vz := vz) (vadd := vadd) (vsc := vsc) (A := iter (Z.to_nat p) M) (H n) v).
      { clear - Ex. generalize (H n). intros c. revert v. induction c as [|x c IHc]; intros v; cbn [LinOp.act]; [reflexivity|].
        rewrite Ex, IHc. reflexivity. }
      rewrite <- (act_frobenius HP HV M HM). cbn [Nat.pow]. rewrite iter_mul. apply iter_ext. exact IH.
  Qed.

  Context {L : positive} {n : nat} {qs : list (nat * list F * list F)}
          (Hcert : rabin_b f pp L qs = true) (Hmul : multiple_b L n = true)
          (Hdiv : divisors_b t (map (fun '(q, _, _) => q) qs) = true).

  Lemma M_inj v : M v = vz -> v = vz.
  Proof.
    intros E. unfold rabin_b in Hcert. destruct (feqb (hd f0 f) f0) eqn:E0; [discriminate|]. clear Hcert.
    destruct f as [|c g] eqn:Ef; [cbn in Hf; lia|]. cbn [hd] in E0.
    specialize (Hkill v). rewrite <- app_comm_cons in Hkill. cbn [LinOp.act] in Hkill.
    rewrite <- (act_A HF HV HM), E, (act_z HF HV HM), (vadd_0_r HF HV) in Hkill.
    destruct (vm_dec _ _ _ _ HV v) as [D|D]; [exact D|]. exfalso. apply (vsc_neq HF HV c v) in D; [contradiction|].
    intros ->. rewrite (feqb_refl HF) in E0. discriminate.
  Qed.

  Theorem powers_irreducible i h w : 1 <= i <= n -> length h < t -> w <> vz ->
    LinOp.act (vz := vz) (vadd := vadd) (vsc := vsc) (A := iter i M) (h ++ [f1]) w <> vz.
  Proof.
    intros Hi Hh Hw. pose proof M_inj as Minj. pose proof Hcert as HC. unfold rabin_b in HC.
    rewrite Hf in HC. destruct (feqb (hd f0 f) f0) eqn:E0; [discriminate|].
    change ((if leqb (H t) (pvar t) then
      forallb (fun '(q, y, r) =>
        if negb (length y =? t) then false else
        if negb (length r =? t) then false else
        if leqb (xmod f y) (H (t / q)) then
          leqb (pmulm f (psubs f1 (ppow f y L) (pone t)) r) (pone t)
        else false) qs
    else false) = true) in HC.
    destruct (leqb (H t) (pvar t)) eqn:Et; [|discriminate]. apply leqb_true in Et.
    assert (Frob : forall v, iter (Z.to_nat p ^ t) M v = M v).
    { intros v. rewrite <- (proj2 (frob_spec t)), Et. apply pvar_act. }
    assert (Inj : forall v, iter i M v = vz -> v = vz).
    { generalize i. intros j. induction j as [|j IH]; intros v E; [exact E|]. apply IH, Minj, E. }
    apply (rabin HP HV (A := iter i M) (iter_linear HF HV HM i) Inj (t := t)) with (e := length h); [| |exact Hh|reflexivity|exact Hw].
    - intros v. unfold pn. rewrite <- iter_mul, Nat.mul_comm, iter_mul. apply iter_ext. exact Frob.
    - intros q Pq Dq v E. unfold pn in E. pose proof (divisors_ok t _ Ht Hdiv q Pq Dq) as Hin.
      apply in_map_iff in Hin. destruct Hin as [[[q' y] r] [Eq Hin]]. cbn in Eq. subst q'.
      rewrite forallb_forall in HC. specialize (HC _ Hin). cbv beta iota in HC.
      destruct (length y =? t) eqn:Ly; [|discriminate]. destruct (length r =? t) eqn:Lr; [|discriminate]. cbn [negb] in HC.
      apply Nat.eqb_eq in Ly. apply Nat.eqb_eq in Lr.
      destruct (leqb (xmod f y) (H (t / q))) eqn:Ey; [|discriminate]. apply leqb_true in Ey. apply leqb_true in HC.
      assert (Py : forall u, iter (Z.to_nat p ^ (t / q)) M u = act y (M u)).
      { intros u. rewrite <- (proj2 (frob_spec (t / q))), <- Ey, xmod_act by exact Ly. symmetry. apply (act_A HF HV HM). }
      set (u := iter i M v).
      assert (Eu : iter i (act y) u = u).
      { unfold u. etransitivity; [|exact E]. rewrite <- (iter_comp (act y) M) by (intros; apply (act_A HF HV HM)).
        rewrite <- iter_mul, Nat.mul_comm, iter_mul. apply iter_ext. intros x. symmetry. apply Py. }
      destruct (multiple_ok L n i Hmul Hi) as [m Hm].
      assert (EL : iter (Pos.to_nat L) (act y) u = u) by (rewrite Hm, iter_mul; apply iter_fix, Eu).
      destruct (ppow_spec y L Ly) as [Lp Ep].
      apply Inj. fold u. rewrite <- (pone_act u), <- HC. rewrite pmulm_act by exact Lr.
      rewrite (act_comm HF HV HM). rewrite (act_psubs HF HV HM) by (rewrite pone_len; exact Lp).
      rewrite Ep, EL, pone_act, (vm_sc1 _ _ _ _ HV), (vsub_diag HF HV). apply (act_z HF HV HM).
  Qed.
End Correct.
