(** * Rabin: an operator with A^(p^t) = A, and A^(p^(t/q)) v <> A v for every prime divisor q of t,
    is not killed on any nonzero vector by a nonzero polynomial of degree < t *)
From Coq Require Import Permutation Znumtheory.
From Verif Require Import Base Field Spec SpecMinPoly FieldPow LinOp.
Local Open Scope nat_scope.

(** ** All coefficient lists of a given length *)
Section Lists.
  Context {F : Type} {Fo : FOps F} {p : Z} (HP : is_prime_field Fo p).
  Let HF : is_field Fo := prime_field_is_field HP.

  Fixpoint all_lists (e : nat) : list (list F) :=
    match e with
    | O => [[]]
    | S n => flat_map (fun x => map (cons x) (all_lists n)) (f0 :: units (p := p))
    end.

  Lemma all_lists_In e l : In l (all_lists e) <-> length l = e.
  Proof.
    revert l. induction e as [|e IH]; intros l; cbn [all_lists].
    - cbn. split; [intros [<-|[]]; reflexivity|]. destruct l; [left; reflexivity|discriminate].
    - rewrite in_flat_map. split.
      + intros [x [_ Hl]]. apply in_map_iff in Hl. destruct Hl as [l' [<- Hl']]. cbn. f_equal. apply IH, Hl'.
      + intros H. destruct l as [|x l]; [discriminate|]. exists x. split.
        * destruct (feq_dec HF x f0) as [->|E]; [left; reflexivity|right; apply (units_In HP), E].
        * apply in_map, IH. cbn in H. lia.
  Qed.

  Lemma NoDup_flat_cons (xs : list F) (ls : list (list F)) : NoDup xs -> NoDup ls ->
    NoDup (flat_map (fun x => map (cons x) ls) xs).
  Proof.
    intros Hx Hl. induction Hx as [|x xs Hn Hx IH]; cbn; [constructor|].
    assert (N : NoDup (map (cons x) ls)).
    { apply FinFun.Injective_map_NoDup; [intros a b E; congruence|exact Hl]. }
    revert N. generalize (fun l (H : In l (map (cons x) ls)) => H).
    assert (D : forall l, In l (map (cons x) ls) -> ~ In l (flat_map (fun x => map (cons x) ls) xs)).
    { intros l H1 H2. apply in_map_iff in H1. destruct H1 as [l1 [<- _]]. apply in_flat_map in H2.
      destruct H2 as [y [Hy H2]]. apply in_map_iff in H2. destruct H2 as [l2 [E _]]. injection E as -> _. contradiction. }
    intros _ N. revert D IH. induction N as [|a l' Ha N IHn]; intros D IH; cbn; [exact IH|].
    constructor.
    - rewrite in_app_iff. intros [H|H]; [contradiction|]. exact (D a (or_introl eq_refl) H).
    - apply IHn; [intros b Hb; apply D; right; exact Hb|exact IH].
  Qed.

  Lemma all_lists_NoDup e : NoDup (all_lists e).
  Proof.
    induction e as [|e IH]; cbn [all_lists]; [constructor; [intros []|constructor]|].
    apply NoDup_flat_cons; [|exact IH]. constructor; [|apply (units_NoDup HP)].
    intros H. apply (units_In HP) in H. congruence.
  Qed.

  Lemma all_lists_length e : length (all_lists e) = (Z.to_nat p) ^ e.
  Proof.
    induction e as [|e IH]; [reflexivity|]. cbn [all_lists].
    assert (L : length (f0 :: units (p := p)) = Z.to_nat p).
    { cbn [length]. rewrite units_length. pose proof (pf_p_ge_2 HP). lia. }
    cbn [Nat.pow]. rewrite <- IH, <- L. generalize (f0 :: units (p := p)). intros l. clear.
    induction l as [|x l IH]; cbn; [reflexivity|]. rewrite app_length, map_length, IH. reflexivity.
  Qed.

  Definition zero_list (l : list F) : bool := forallb (fun x => feqb x f0) l.
  Lemma zero_list_true l : zero_list l = true <-> l = repeat f0 (length l).
  Proof.
    unfold zero_list. induction l as [|x l IH]; cbn; [tauto|]. rewrite andb_true_iff, IH, (ff_eqb _ HF).
    split; [intros [-> E]; f_equal; exact E|]. intros E. injection E as E1 E2. split; [exact E1|exact E2].
  Qed.
  Lemma zero_list_false l : zero_list l = false <-> exists x, In x l /\ x <> f0.
  Proof.
    unfold zero_list. induction l as [|x l IH]; cbn.
    - split; [discriminate|]. intros [x [[] _]].
    - destruct (feq_dec HF x f0) as [->|E].
      + rewrite (feqb_refl HF). cbn. rewrite IH. split; intros [y [Hy Hn]]; exists y; (split; [|exact Hn]); [right; exact Hy|].
        destruct Hy as [<-|Hy]; [congruence|exact Hy].
      + rewrite (feqb_neq HF) by exact E. cbn. split; [intros _; exists x; auto|reflexivity].
  Qed.

  Definition nonzero_lists (e : nat) : list (list F) := filter (fun l => negb (zero_list l)) (all_lists e).
  Lemma nonzero_lists_In e l : In l (nonzero_lists e) <-> length l = e /\ zero_list l = false.
  Proof. unfold nonzero_lists. rewrite filter_In, all_lists_In, negb_true_iff. reflexivity. Qed.
  Lemma nonzero_lists_NoDup e : NoDup (nonzero_lists e).
  Proof. apply NoDup_filter, all_lists_NoDup. Qed.
  Lemma nonzero_lists_length e : S (length (nonzero_lists e)) = (Z.to_nat p) ^ e.
  Proof.
    rewrite <- all_lists_length. symmetry.
    transitivity (length (repeat f0 e :: nonzero_lists e)); [|reflexivity].
    apply Permutation_length, NoDup_Permutation.
    - apply all_lists_NoDup.
    - constructor; [|apply nonzero_lists_NoDup]. intros H. apply nonzero_lists_In in H. destruct H as [_ H].
      assert (E : zero_list (repeat f0 e) = true) by (apply zero_list_true; rewrite repeat_length; reflexivity). congruence.
    - intros l. cbn [In]. rewrite nonzero_lists_In, all_lists_In. split.
      + intros E. destruct (zero_list l) eqn:Z; [left|right; auto]. apply zero_list_true in Z. rewrite Z, E. reflexivity.
      + intros [<-|[E _]]; [apply repeat_length|exact E].
  Qed.
End Lists.

Section Rabin.
  Context {F : Type} {Fo : FOps F} {p : Z} (HP : is_prime_field Fo p).
  Let HF : is_field Fo := prime_field_is_field HP.
  Add Ring FringRb : (ff_ring _ HF).
  Context {V : Type} {vz : V} {vadd : V -> V -> V} {vsc : F -> V -> V} (HV : is_module Fo vz vadd vsc).
  Context {A : V -> V} (HA : is_linear vadd vsc A) (Ainj : forall v, A v = vz -> v = vz).

  Notation act := (act (vz := vz) (vadd := vadd) (vsc := vsc) (A := A)).
  Notation vsub := (vsub (vadd := vadd) (vsc := vsc)).
  Definition pn : nat := Z.to_nat p.

  Lemma iter_inj n v : iter n A v = vz -> v = vz.
  Proof. induction n as [|n IH]; cbn; [auto|]. intros H. apply IH, Ainj, H. Qed.

  Section MinDegree.
    Context {e : nat} {g : list F} (He : 1 <= e) (Hg : length g = e)
            (Hmin : forall h w, w <> vz -> length h < e -> act (h ++ [f1]) w <> vz).

    Definition ker w := act (g ++ [f1]) w = vz.
    Lemma ker_iter n w : ker w -> ker (iter n A w).
    Proof. unfold ker. intros H. rewrite (act_iter HF HV HA), H. apply iter_fix, (lin_z HF HV HA). Qed.
    Lemma ker_act h w : ker w -> ker (act h w).
    Proof. unfold ker. intros H. rewrite (act_comm HF HV HA), H. apply (act_z HF HV HA). Qed.
    Lemma ker_sub v w : ker v -> ker w -> ker (vsub v w).
    Proof.
      unfold ker. intros E1 E2. unfold LinOp.vsub. rewrite (proj1 (act_linear HF HV HA _)), (proj2 (act_linear HF HV HA _)), E1, E2.
      rewrite (vm_0 _ _ _ _ HV). apply (vsc_z HF HV).
    Qed.

    Lemma g0_nonzero w : ker w -> w <> vz -> hd f0 g <> f0.
    Proof.
      intros Hk Hw H0. unfold ker in Hk. destruct g as [|c g'] eqn:Eg; [cbn in Hg; lia|]. cbn in H0. subst c.
      rewrite <- app_comm_cons in Hk. cbn [LinOp.act] in Hk. rewrite (vm_sc0 _ _ _ _ HV), (vm_0 _ _ _ _ HV) in Hk. apply Ainj in Hk.
      apply (Hmin g' w Hw) in Hk; [exact Hk|]. cbn in Hg. lia.
    Qed.

    Lemma nz_act c w : In c (nonzero_lists (p := p) e) -> w <> vz -> act c w <> vz.
    Proof.
      intros Hc Hw. apply nonzero_lists_In in Hc; [|exact HP]. destruct Hc as [Hl Hz]. apply (zero_list_false HP) in Hz.
      apply (nonzero_act HF HV HA e); [intros h Hh; apply Hmin; assumption|lia|exact Hz].
    Qed.

    Lemma xmod_In : hd f0 g <> f0 -> forall c, In c (nonzero_lists (p := p) e) -> In (xmod g c) (nonzero_lists (p := p) e).
    Proof.
      intros H0 c Hc. apply (nonzero_lists_In HP) in Hc. destruct Hc as [Hl Hz]. apply (nonzero_lists_In HP).
      assert (N : c <> []) by (intros ->; cbn in Hl; lia).
      split; [rewrite xmod_length by (congruence || lia); exact Hg|].
      destruct (zero_list (xmod g c)) eqn:Z; [exfalso|reflexivity].
      apply (zero_list_true HP) in Z. rewrite xmod_length in Z by (congruence || lia).
      destruct (exists_last N) as [c' [l ->]]. unfold xmod in Z. rewrite removelast_last, last_last in Z.
      destruct g as [|g0 g'] eqn:Eg; [cbn in Hg; lia|]. cbn in Z. fold (psubs l c' g') in Z. injection Z as Z0 Z'. cbn in H0.
      assert (El : l = f0).
      { destruct (feq_dec HF l f0) as [E|E]; [exact E|]. exfalso.
        assert (E2 : fmul l g0 = f0) by (transitivity (fopp (fsub f0 (fmul l g0))); [unfold fopp; ring|rewrite Z0; unfold fopp; ring]).
        destruct (fmul_integral HF _ _ E2); contradiction. }
      subst l. assert (Z2 : c' = repeat f0 (length g')).
      { rewrite app_length in Hl. cbn in Hl, Hg. assert (L : length c' = length g') by lia. clear - L Z' HF.
        revert g' L Z'. induction c' as [|x c' IH]; intros [|y g'] L Z'; try discriminate; [reflexivity|].
        cbn in Z'. injection Z' as E1 E2. cbn. f_equal; [|apply IH; [cbn in L; lia|exact E2]].
        rewrite <- E1. ring. }
      apply (zero_list_false HP) in Hz. destruct Hz as [x [Hx Hn]]. apply Hn.
      apply in_app_iff in Hx. destruct Hx as [Hx|[<-|[]]]; [|reflexivity].
      rewrite Z2 in Hx. exact (repeat_spec _ _ _ Hx).
    Qed.

    Lemma xmod_inj : hd f0 g <> f0 -> forall c d, length c = e -> length d = e -> xmod g c = xmod g d -> c = d.
    Proof.
      intros H0 c d Hc Hd E.
      assert (Nc : c <> []) by (intros ->; cbn in Hc; lia). assert (Nd : d <> []) by (intros ->; cbn in Hd; lia).
      destruct (exists_last Nc) as [c' [l ->]]. destruct (exists_last Nd) as [d' [m ->]].
      unfold xmod in E. rewrite !removelast_last, !last_last in E.
      destruct g as [|g0 g'] eqn:Eg; [cbn in Hg; lia|]. cbn in E. fold (psubs l c' g') in E. fold (psubs m d' g') in E.
      injection E as E0 E'. cbn in H0. rewrite app_length in Hc, Hd. cbn in Hc, Hd, Hg.
      assert (El : l = m).
      { apply (fmul_cancel_l HF g0); [exact H0|]. transitivity (fsub f0 (fsub f0 (fmul l g0))); [ring|]. rewrite E0. ring. }
      subst m. f_equal. assert (Lc : length c' = length g') by lia. assert (Ld : length d' = length g') by lia.
      clear - Lc Ld E' HF. revert d' g' Lc Ld E'. induction c' as [|x c' IH]; intros [|y d'] [|z g'] Lc Ld E'; try discriminate; [reflexivity|].
      cbn in E'. injection E' as E1 E2. f_equal; [|apply (IH d' g'); [cbn in *; lia|cbn in *; lia|exact E2]].
      transitivity (fadd (fsub x (fmul l z)) (fmul l z)); [ring|]. rewrite E1. ring.
    Qed.

    (** the product of the operators [act c] *)
    Fixpoint prodact (cs : list (list F)) (w : V) : V :=
      match cs with [] => w | c :: cs' => act c (prodact cs' w) end.
    Lemma prodact_perm cs ds w : Permutation cs ds -> prodact cs w = prodact ds w.
    Proof.
      intros H. induction H as [|c l l' H IH|c d l|l l' l'' H1 IH1 H2 IH2]; cbn [prodact];
        [reflexivity|rewrite IH; reflexivity|apply (act_comm HF HV HA)|rewrite IH1; exact IH2].
    Qed.
    Lemma prodact_linear cs : is_linear vadd vsc (prodact cs).
    Proof.
      induction cs as [|c cs [I1 I2]]; split; intros; cbn [prodact map length iter]; try reflexivity.
      - rewrite I1. apply (proj1 (act_linear HF HV HA c)).
      - rewrite I2. apply (proj2 (act_linear HF HV HA c)).
    Qed.
    Lemma prodact_A n cs w : prodact cs (iter n A w) = iter n A (prodact cs w).
    Proof. induction cs as [|c cs IH]; cbn [prodact map length iter]; [reflexivity|]. rewrite IH. apply (act_iter HF HV HA). Qed.
    Lemma prodact_ker cs w : ker w -> ker (prodact cs w).
    Proof. intros H. induction cs as [|c cs IH]; cbn [prodact map length iter]; [exact H|]. apply ker_act, IH. Qed.
    Lemma prodact_xmod cs w : ker w -> (forall c, In c cs -> length c = e) ->
      prodact (map (xmod g) cs) w = iter (length cs) A (prodact cs w).
    Proof.
      intros Hk Hl. induction cs as [|c cs IH]; cbn [prodact map length iter]; [reflexivity|].
      rewrite IH by (intros d Hd; apply Hl; right; exact Hd).
      assert (Lc : length c = e) by (apply Hl; left; reflexivity).
      rewrite (act_xmod HF HV HA); [|congruence|intros ->; cbn in Lc; lia|].
      - rewrite (act_iter HF HV HA). reflexivity.
      - apply ker_iter. apply prodact_ker, Hk.
    Qed.
    Lemma prodact_neq cs w : (forall c, In c cs -> In c (nonzero_lists (p := p) e)) -> w <> vz -> prodact cs w <> vz.
    Proof.
      intros H Hw. induction cs as [|c cs IH]; cbn [prodact map length iter]; [exact Hw|].
      apply nz_act; [apply H; left; reflexivity|]. apply IH. intros d Hd. apply H. right. exact Hd.
    Qed.

    Lemma min_degree_fermat w : ker w -> iter (pn ^ e) A w = A w.
    Proof.
      intros Hk. destruct (vm_dec _ _ _ _ HV w) as [->|Hw].
      { rewrite (iter_fix A) by apply (lin_z HF HV HA). symmetry. apply (lin_z HF HV HA). }
      pose proof (g0_nonzero w Hk Hw) as H0. unfold pn. rewrite <- (nonzero_lists_length HP e). cbn [iter]. f_equal.
      set (cs := nonzero_lists (p := p) e). set (N := length cs).
      assert (Pm : Permutation (map (xmod g) cs) cs).
      { apply NoDup_Permutation_bis.
        - apply NoDup_map_in; [|apply (nonzero_lists_NoDup HP)].
          intros c d Hc Hd E. apply (nonzero_lists_In HP) in Hc. apply (nonzero_lists_In HP) in Hd. apply (xmod_inj H0); tauto.
        - rewrite map_length. lia.
        - intros l Hl. apply in_map_iff in Hl. destruct Hl as [c [<- Hc]]. apply (xmod_In H0), Hc. }
      apply (vsub_eq HF HV). destruct (vm_dec _ _ _ _ HV (vsub (iter N A w) w)) as [E|E]; [exact E|exfalso].
      apply (prodact_neq cs _ (fun c H => H) E).
      unfold LinOp.vsub. rewrite (proj1 (prodact_linear cs)), (proj2 (prodact_linear cs)), prodact_A.
      unfold N. rewrite <- prodact_xmod; [|exact Hk|intros c Hc; apply (nonzero_lists_In HP) in Hc; tauto].
      rewrite (prodact_perm _ _ w Pm). apply (vsub_diag HF HV).
    Qed.
  End MinDegree.

  Lemma prime_power_of_gcd w a b :
    (forall n, iter (pn ^ a) A (iter n A w) = A (iter n A w)) -> (forall n, iter (pn ^ b) A (iter n A w) = A (iter n A w)) ->
    forall n, iter (pn ^ Nat.gcd a b) A (iter n A w) = A (iter n A w).
  Proof.
    remember (a + b) as s eqn:Es. revert a b Es. induction s as [s IH] using (well_founded_induction lt_wf).
    intros a b -> Ea Eb.
    assert (Step : forall x y, y <= x -> (forall n, iter (pn ^ x) A (iter n A w) = A (iter n A w)) ->
                     (forall n, iter (pn ^ y) A (iter n A w) = A (iter n A w)) ->
                     forall n, iter (pn ^ (x - y)) A (iter n A w) = A (iter n A w)).
    { intros x y Hxy Hx Hy n. rewrite <- (Hx n). replace (pn ^ x) with (pn ^ (x - y) * pn ^ y) by (rewrite <- Nat.pow_add_r; f_equal; lia).
      rewrite iter_mul. generalize (pn ^ (x - y)). intros k. clear - Hy. revert n. induction k as [|k IH]; intros n; cbn [iter]; [reflexivity|].
      rewrite <- IH. rewrite <- iter_add. rewrite Hy. reflexivity. }
    destruct a as [|a]; [exact Eb|]. destruct b as [|b]; [rewrite Nat.gcd_0_r; exact Ea|].
    destruct (Nat.le_ge_cases (S a) (S b)) as [L|L].
    - pose proof (Step _ _ L Eb Ea) as E. replace (Nat.gcd (S a) (S b)) with (Nat.gcd (S a) (S b - S a)) by (apply Nat.gcd_sub_diag_r; exact L).
      apply (IH (S a + (S b - S a))); [lia|reflexivity|exact Ea|exact E].
    - pose proof (Step _ _ L Ea Eb) as E. rewrite Nat.gcd_comm.
      replace (Nat.gcd (S b) (S a)) with (Nat.gcd (S b) (S a - S b)) by (apply Nat.gcd_sub_diag_r; exact L).
      apply (IH (S b + (S a - S b))); [lia|reflexivity|exact Eb|exact E].
  Qed.

  Lemma prime_power_multiple w d k :
    (forall n, iter (pn ^ d) A (iter n A w) = A (iter n A w)) -> 1 <= k -> iter (pn ^ (d * k)) A w = A w.
  Proof.
    intros Hd Hk. destruct k as [|k]; [lia|]. clear Hk. induction k as [|k IH].
    - rewrite Nat.mul_1_r. exact (Hd 0).
    - replace (d * S (S k)) with (d * S k + d) by lia. rewrite Nat.pow_add_r, iter_mul. rewrite <- IH.
      generalize (pn ^ (d * S k)). intros m. clear - Hd. induction m as [|m IH]; cbn [iter]; [reflexivity|].
      rewrite IH. exact (Hd m).
  Qed.

  Lemma prime_divisor n : 2 <= n -> exists q, prime (Z.of_nat q) /\ Nat.divide q n.
  Proof.
    induction n as [n IH] using (well_founded_induction lt_wf). intros Hn.
    destruct (prime_dec (Z.of_nat n)) as [P|N]; [exists n; split; [exact P|apply Nat.divide_refl]|].
    apply not_prime_divide in N; [|lia]. destruct N as [d [Hd [k Hk]]].
    destruct (IH (Z.to_nat d)) as [q [Pq [j Hj]]]; [lia|lia|].
    exists q. split; [exact Pq|]. exists (Z.to_nat k * j). rewrite <- Nat.mul_assoc, <- Hj. nia.
  Qed.

  Context {t : nat} (Hfrob : forall v, iter (pn ^ t) A v = A v)
          (Hprime : forall q, prime (Z.of_nat q) -> Nat.divide q t -> forall v, iter (pn ^ (t / q)) A v = A v -> v = vz).

  Theorem rabin : forall e h w, e < t -> length h = e -> w <> vz -> act (h ++ [f1]) w <> vz.
  Proof.
    induction e as [e IH] using (well_founded_induction lt_wf). intros g w Het Hg Hw Hk.
    destruct (Nat.eq_dec e 0) as [->|He].
    { destruct g; [|discriminate]. cbn [app] in Hk. rewrite (act_1 HF HV HA) in Hk. contradiction. }
    assert (Hmin : forall h u, u <> vz -> length h < e -> act (h ++ [f1]) u <> vz).
    { intros h u Hu Hh. apply (IH (length h)); [exact Hh|lia|reflexivity|exact Hu]. }
    assert (E1 : forall n, iter (pn ^ e) A (iter n A w) = A (iter n A w)).
    { intros n. apply (min_degree_fermat (g := g)); [lia|exact Hg|exact Hmin|]. apply ker_iter. exact Hk. }
    pose proof (prime_power_of_gcd w e t E1 (fun n => Hfrob _)) as Ed.
    set (d := Nat.gcd e t) in *.
    destruct (Nat.gcd_divide_l e t) as [x Hx]. destruct (Nat.gcd_divide_r e t) as [y Hy]. fold d in Hx, Hy.
    assert (Hy2 : 2 <= y).
    { destruct y as [|[|y]]; [lia| |lia]. exfalso. destruct x as [|x]; [lia|]. rewrite Nat.mul_1_l in Hy.
      assert (d <= S x * d) by (cbn; lia). lia. } destruct (prime_divisor y Hy2) as [q [Pq [z Hz]]].
    apply Hw. apply (Hprime q Pq).
    - exists (z * d). rewrite Hy, Hz. nia.
    - replace (t / q) with (d * z).
      + apply prime_power_multiple; [exact Ed|]. destruct z; [lia|lia].
      + pose proof (prime_ge_2 _ Pq). replace t with (d * z * q) by (rewrite Hy, Hz; nia). rewrite Nat.div_mul by lia. reflexivity.
  Qed.
End Rabin.
