(** * ProofSbox: differences and affine approximations of the S-boxes *)
From Verif Require Import Base Field Spec FieldPow LinAlg Poly PolyFun SpecPoly SpecPoseidon2 SpecSbox SpecNeptune
  ModelUtils ModelPoseidon2 ModelPoseidon ModelGmimc ModelNeptune ProofPoseidon2 ProofPoseidon2Lin ProofPoseidon ProofGmimc ProofNeptune ProofNeptuneFin.
From Verif Require ProofZeroSum.

Section Power.
  Context {F : Type} {Fo : FOps F} {p : Z} (HP : is_prime_field Fo p).
  Let HF : is_field Fo := prime_field_is_field HP.
  Add Ring FringSb : (ff_ring _ HF).

  Lemma diff_poly a n : poly_le n (fun x : F => fsub (fpow (fadd x a) (S n)) (fpow x (S n))).
  Proof.
    induction n as [|n IH].
    - apply (poly_ext 0 (fun _ => a)); [|apply (poly_const HF)]. intros x. cbn [fpow]. ring.
    - apply (poly_ext (S n) (fun x => fadd (fmul (fadd x a) (fsub (fpow (fadd x a) (S n)) (fpow x (S n)))) (fmul a (fpow x (S n))))).
      + intros x. change (fpow (fadd x a) (S (S n))) with (fmul (fadd x a) (fpow (fadd x a) (S n))).
        change (fpow x (S (S n))) with (fmul x (fpow x (S n))). ring.
      + apply (poly_add HF).
        * apply (poly_mul HF 1 n); [|exact IH]. apply (poly_add HF); [apply (poly_id HF); lia|apply (poly_const HF)].
        * apply (poly_scale HF). replace (S n) with (1 * S n) at 1 by lia. apply (poly_pow HF). apply (poly_id HF). lia.
  Qed.

  Lemma pow_not_id d : 2 <= d -> (Z.of_nat d < p)%Z -> ~ (forall x : F, fpow x d = x).
  Proof.
    intros Hd Hp H. destruct (exists_not_root HP (d - 1) ltac:(lia) ltac:(lia)) as [y [Ny Hy]].
    apply Hy. specialize (H y). replace d with (S (d - 1)) in H by lia. change (fpow y (S (d - 1))) with (fmul y (fpow y (d - 1))) in H.
    apply (fmul_cancel_l HF y _ _ Ny). rewrite H. ring.
  Qed.

  Lemma pow_difference d a b L : 2 <= d -> (Z.of_nat d < p)%Z -> a <> f0 -> NoDup L ->
    (forall x, In x L -> fsub (fpow (fadd x a) d) (fpow x d) = b) -> length L <= d - 1.
  Proof.
    intros Hd Hp Ha ND H. destruct (le_lt_dec (length L) (d - 1)) as [E|E]; [exact E|]. exfalso.
    assert (A : forall x, fsub (fpow (fadd x a) d) (fpow x d) = b).
    { apply (poly_values HF (d - 1) (fun x => fsub (fpow (fadd x a) d) (fpow x d)) b L); [|exact ND|lia|exact H].
      pose proof (diff_poly a (d - 1)) as P. replace (S (d - 1)) with d in P by lia. exact P. }
    assert (Z0 : fpow (f0 : F) d = f0) by (apply (fpow_0 HF); lia).
    assert (B : b = fpow a d).
    { rewrite <- (A f0), Z0. replace (fadd f0 a) with a by ring. ring. }
    assert (K : forall k, fpow (fmul (fnat k) a) d = fmul (fnat k) (fpow a d)).
    { induction k as [|k IH].
      - change (fnat 0) with (f0 : F). replace (fmul f0 a) with (f0 : F) by ring. rewrite Z0. ring.
      - rewrite fnat_S. replace (fmul (fadd (fnat k) f1) a) with (fadd (fmul (fnat k) a) a) by ring.
        pose proof (A (fmul (fnat k) a)) as E1. rewrite B, IH in E1.
        transitivity (fadd (fsub (fpow (fadd (fmul (fnat k) a) a) d) (fmul (fnat k) (fpow a d))) (fmul (fnat k) (fpow a d))); [ring|].
        rewrite E1. ring. }
    apply (pow_not_id d Hd Hp). intros x.
    assert (Ex : exists k, x = fnat k).
    { exists (Z.to_nat (f_to_Z x)). rewrite (fnat_Z HP), Z2Nat.id.
      - symmetry. apply (pf_of_to _ _ HP).
      - rewrite <- (pf_of_to _ _ HP x), (pf_to_of _ _ HP). apply Z.mod_pos_bound. pose proof (pf_p_ge_2 HP). lia. }
    destruct Ex as [k ->]. pose proof (K k) as E1. rewrite (fpow_mul_base HF) in E1.
    assert (Na : fpow a d <> f0) by (apply (fpow_neq_0 HF); exact Ha).
    apply (fmul_cancel_l HF (fpow a d) _ _ Na). etransitivity; [|etransitivity; [exact E1|]]; ring.
  Qed.

  Lemma pow_affine d a b L : 2 <= d -> (Z.of_nat d < p)%Z -> NoDup L ->
    (forall x, In x L -> fpow x d = fadd (fmul a x) b) -> length L <= d.
  Proof.
    intros Hd Hp ND H. destruct (le_lt_dec (length L) d) as [E|E]; [exact E|]. exfalso.
    assert (A : forall x : F, fpow x d = fadd (fmul a x) b).
    { apply (poly_agree HF d (fun x => fpow x d) (fun x => fadd (fmul a x) b) L); [| |exact ND|exact E|exact H].
      - replace d with (1 * d) at 1 by lia. apply (poly_pow HF). apply (poly_id HF). lia.
      - apply (poly_add HF); [apply (poly_scale HF), (poly_id HF); lia|apply (poly_const HF)]. }
    assert (B : b = f0).
    { pose proof (A f0) as E0. rewrite (fpow_0 HF) in E0 by lia. rewrite E0. ring. }
    assert (C : a = f1).
    { pose proof (A f1) as E1. rewrite (fpow_1 HF), B in E1. transitivity (fadd (fmul a f1) f0); [ring|]. rewrite <- E1. reflexivity. }
    apply (pow_not_id d Hd Hp). intros x. rewrite A, B, C. ring.
  Qed.

  (** a power map with an odd exponent repeats each difference at the mirrored point *)
  Lemma fpow_opp_odd x d : Nat.odd d = true -> fpow (fopp x) d = fopp (fpow x d : F).
  Proof.
    intros H. apply Nat.odd_spec in H. destruct H as [k ->].
    replace (2 * k + 1) with (S (2 * k)) by lia. cbn [fpow].
    assert (E : forall k, fpow (fopp x) (2 * k) = fpow x (2 * k)).
    { induction k0 as [|j IH]; [reflexivity|]. replace (2 * S j) with (S (S (2 * j))) by lia. cbn [fpow]. rewrite IH. ring. }
    rewrite E. ring.
  Qed.
End Power.

Section Sboxes.
  Context {F : Type} {Fo : FOps F} {p : Z} (HP : is_prime_field Fo p).
  Let HF : is_field Fo := prime_field_is_field HP.
  Add Ring FringSb2 : (ff_ring _ HF).

  Lemma power_box d c (f : F -> res F) : sbox_degree d -> (Z.of_nat d < p)%Z -> (forall x, f x = Ok (fpow (fadd x c) d)) ->
    differential_bound f (d - 1) /\ affine_bound f d /\ ~ differential_bound f 1.
  Proof.
    intros Hd Hp Hf. assert (D2 : 2 <= d) by (unfold sbox_degree in Hd; cbn [In] in Hd; lia).
    assert (Inj : forall L : list F, NoDup L -> NoDup (map (fun x => fadd x c) L)).
    { intros L. apply FinFun.Injective_map_NoDup. intros x y E. transitivity (fsub (fadd x c) c); [ring|]. rewrite E. ring. }
    split; [|split].
    - intros a b L Ha ND H. rewrite <- (map_length (fun x => fadd x c) L).
      apply (pow_difference HP d a b); [exact D2|exact Hp|exact Ha|apply Inj; exact ND|].
      intros y Hy. apply in_map_iff in Hy. destruct Hy as [x [<- Hx]]. destruct (H x Hx) as [u [v [Eu [Ev <-]]]].
      rewrite Hf in Eu, Ev. injection Eu as <-. injection Ev as <-.
      replace (fadd (fadd x a) c) with (fadd (fadd x c) a) by ring. reflexivity.
    - intros a b L ND H. rewrite <- (map_length (fun x => fadd x c) L).
      apply (pow_affine HP d a (fsub b (fmul a c))); [exact D2|exact Hp|apply Inj; exact ND|].
      intros y Hy. apply in_map_iff in Hy. destruct Hy as [x [<- Hx]]. specialize (H x Hx). rewrite Hf in H. injection H as H.
      rewrite H. ring.
    - intros B. assert (Ho : Nat.odd d = true) by (unfold sbox_degree in Hd; cbn [In] in Hd; destruct Hd as [<-|[<-|[<-|[]]]]; reflexivity).
      assert (H : length [fopp c; fsub (fopp f1) c] <= 1); [|cbn [length] in H; lia].
      apply (B f1 f1).
      + apply (ff_one_neq_zero _ HF).
      + constructor; [|constructor; [intros []|constructor]]. intros [E|[]]. apply (ff_one_neq_zero _ HF).
        transitivity (fsub (fopp c) (fsub (fopp (f1 : F)) c)); [ring|]. rewrite E. ring.
      + assert (E1 : fpow (fopp (f1 : F)) d = fopp f1) by (rewrite (fpow_opp_odd HP) by exact Ho; rewrite (fpow_1 HF); reflexivity).
        intros x [<-|[<-|[]]]; do 2 eexists; (split; [apply Hf|]); (split; [apply Hf|]).
        * replace (fadd (fadd (fopp c) f1) c) with (f1 : F) by ring. replace (fadd (fopp c) c) with (f0 : F) by ring.
          rewrite (fpow_1 HF), (fpow_0 HF) by lia. ring.
        * replace (fadd (fadd (fsub (fopp f1) c) f1) c) with (f0 : F) by ring. replace (fadd (fsub (fopp f1) c) c) with (fopp (f1 : F)) by ring.
          rewrite E1, (fpow_0 HF) by lia. ring.
  Qed.

  Lemma plain_box d (f : F -> res F) : sbox_degree d -> (Z.of_nat d < p)%Z -> (forall x, f x = Ok (fpow x d)) ->
    differential_bound f (d - 1) /\ affine_bound f d /\ ~ differential_bound f 1.
  Proof.
    intros Hd Hp Hf. apply (power_box d f0 f Hd Hp). intros x. rewrite Hf. replace (fadd x f0) with x by ring. reflexivity.
  Qed.

  Theorem p2_box (P : Poseidon2Params F) : sbox_degree (p2_d P) -> (Z.of_nat (p2_d P) < p)%Z ->
    differential_bound (p2_sbox_p P) (p2_d P - 1) /\ affine_bound (p2_sbox_p P) (p2_d P) /\ ~ differential_bound (p2_sbox_p P) 1.
  Proof.
    intros Hd Hp. apply (plain_box (p2_d P) _ Hd Hp). intros x. rewrite (p2_sbox_p_eq HF). rewrite (proj2 (degree_bool _) Hd). reflexivity.
  Qed.
  Theorem ps_box (P : PoseidonParams F) : sbox_degree (ps_d P) -> (Z.of_nat (ps_d P) < p)%Z ->
    differential_bound (ps_sbox_p P) (ps_d P - 1) /\ affine_bound (ps_sbox_p P) (ps_d P) /\ ~ differential_bound (ps_sbox_p P) 1.
  Proof. intros Hd Hp. apply (plain_box (ps_d P) _ Hd Hp). intros x. apply (ps_sbox_p_ok HF). exact Hd. Qed.
  Theorem np_box (P : NeptuneParams F) : sbox_degree (np_d P) -> (Z.of_nat (np_d P) < p)%Z ->
    differential_bound (np_sbox_d P) (np_d P - 1) /\ affine_bound (np_sbox_d P) (np_d P) /\ ~ differential_bound (np_sbox_d P) 1.
  Proof.
    intros Hd Hp. apply (plain_box (np_d P) _ Hd Hp). intros x. unfold np_sbox_d. cbv zeta.
    rewrite (sbox_cases HF (np_d P)), (proj2 (degree_bool _) Hd). reflexivity.
  Qed.
  Theorem gm_box (P : GmimcParams F) r : sbox_degree (gm_d P) -> (Z.of_nat (gm_d P) < p)%Z -> r < length (gm_rc P) ->
    differential_bound (fun x => gm_sbox P x r) (gm_d P - 1) /\ affine_bound (fun x => gm_sbox P x r) (gm_d P) /\
    ~ differential_bound (fun x => gm_sbox P x r) 1.
  Proof.
    intros Hd Hp Hr. apply (power_box (gm_d P) (nth r (gm_rc P) f0) _ Hd Hp). intros x. apply (gm_sbox_ok HF); assumption.
  Qed.

  (** in the field with d elements x^d = x, so that all differences are constant *)
  Theorem p2_box_frobenius (P : Poseidon2Params F) : sbox_degree (p2_d P) -> p = Z.of_nat (p2_d P) ->
    ~ differential_bound (p2_sbox_p P) (p2_d P - 1).
  Proof.
    intros Hd Hp B. destruct (ProofZeroSum.all_enumerate HP) as [ND _]. pose proof (ProofZeroSum.enumerates_length HP _ (ProofZeroSum.all_enumerate HP)) as HL.
    assert (H : length (@ProofZeroSum.all_elements F Fo p) <= p2_d P - 1).
    - apply (B f1 f1); [apply (ff_one_neq_zero _ HF)|exact ND|]. intros x _.
      assert (E : forall y, p2_sbox_p P y = Ok y).
      { intros y. rewrite (p2_sbox_p_eq HF), (proj2 (degree_bool _) Hd). f_equal.
        pose proof (pf_p_ge_2 HP). replace (p2_d P) with (S (Z.to_nat (p - 1))) by lia. change (fpow y (S (Z.to_nat (p - 1)))) with (fmul y (fpow y (Z.to_nat (p - 1)))).
        destruct (feq_dec HF y f0) as [->|N]; [ring|]. rewrite (fermat HP y N). ring. }
      exists (fadd x f1), x. split; [apply E|]. split; [apply E|]. ring.
    - unfold sbox_degree in Hd. cbn [In] in Hd. lia.
  Qed.

  (** ** Neptune's S-box on pairs *)
  Lemma nodup_le (L : list F) : NoDup L -> (Z.of_nat (length L) <= p)%Z.
  Proof.
    intros ND. destruct (ProofZeroSum.all_enumerate HP) as [_ A]. pose proof (ProofZeroSum.enumerates_length HP _ (ProofZeroSum.all_enumerate HP)) as HL.
    rewrite <- HL. apply Nat2Z.inj_le. apply NoDup_incl_length; [exact ND|]. intros x _. apply A.
  Qed.
  Lemma inj_le {B} (g : B -> F) (L : list B) : NoDup L -> (forall x y, In x L -> In y L -> g x = g y -> x = y) -> (Z.of_nat (length L) <= p)%Z.
  Proof.
    intros ND I. rewrite <- (map_length g L). apply nodup_le.
    induction ND as [|x L Hx ND IH]; [constructor|]. cbn [map]. constructor.
    - intros E. apply in_map_iff in E. destruct E as [y [Ey Hy]]. apply Hx. rewrite (I x y); [exact Hy|left; reflexivity|right; exact Hy|symmetry; exact Ey].
    - apply IH. intros a b Ha Hb. apply I; right; assumption.
  Qed.

  (** writing s = x1 - x2 and u = s - x2 - s^2 + gamma *)
  Lemma pair_diff P a b x1 x2 :
    let s := fsub x1 x2 in let e := fsub a b in
    let u := fadd (fsub (fsub s x2) (fmul s s)) (snd (np_abc P)) in
    let q := fadd (fmul (fadd s s) e) (fmul e e) in
    let h := fsub (fsub e b) q in
    let w := fadd (fmul (fadd u u) h) (fmul h h) in
    pair_difference (np_external_sbox_prime P) a b x1 x2 =
    (fadd (fadd (fadd (fadd a a) b) (fadd (fadd q q) q)) w, fadd (fadd (fadd a (fadd (fadd b b) b)) (fadd (fadd q q) (fadd q q))) w).
  Proof.
    cbv zeta. unfold pair_difference, np_external_sbox_prime, fdouble, fsquare. cbv zeta. cbn [fst snd]. f_equal; ring.
  Qed.

  Theorem np_pair_box (P : NeptuneParams F) : p <> 2%Z -> pair_uniformity (np_external_sbox_prime P) p.
  Proof.
    intros Hp.
    assert (T : fadd f1 f1 <> (f0 : F)).
    { pose proof (fnat2_neq HP Hp) as T. intros E. apply T. change (fnat 2) with (fadd (fadd f0 f1) (f1 : F)). transitivity (fadd f1 (f1 : F)); [ring|exact E]. }
    assert (Dbl : forall x y k : F, k <> f0 -> fmul (fadd x x) k = fmul (fadd y y) k -> x = y).
    { intros x y k Hk E. apply (fmul_cancel_l HF (fmul (fadd f1 f1) k)).
      - intros Z. destruct (fmul_integral HF _ _ Z); contradiction.
      - etransitivity; [|etransitivity; [exact E|]]; ring. }
    split.
    - intros a b [c1 c2] L Hab ND H. set (ga := snd (np_abc P)).
      set (s := fun x : F * F => fsub (fst x) (snd x)). set (e := fsub a b).
      set (q := fun x => fadd (fmul (fadd (s x) (s x)) e) (fmul e e)).
      (* the difference of the two output words determines q *)
      assert (Q : forall x y, In x L -> In y L -> q x = q y).
      { intros x y Hx Hy. pose proof (H x Hx) as Ex. pose proof (H y Hy) as Ey. rewrite pair_diff in Ex, Ey. cbv zeta in Ex, Ey.
        fold e in Ex, Ey. fold (s x) in Ex. fold (s y) in Ey. fold (q x) in Ex. fold (q y) in Ey.
        injection Ex as Ex1 Ex2. injection Ey as Ey1 Ey2.
        transitivity (fsub (fsub c2 c1) (fsub (fadd a (fadd (fadd b b) b)) (fadd (fadd a a) b))); [rewrite <- Ex1, <- Ex2; ring|].
        rewrite <- Ey1, <- Ey2. ring. }
      destruct (feq_dec HF e f0) as [E0|N0].
      + (* equal words in the input difference: u is determined *)
        assert (Nb : b <> f0).
        { intros Eb. apply Hab. split; [|exact Eb]. apply (fsub_eq_0 HF) in E0. rewrite E0. exact Eb. }
        set (u := fun x => fadd (fsub (fsub (s x) (snd x)) (fmul (s x) (s x))) ga).
        assert (U : forall x y, In x L -> In y L -> u x = u y).
        { intros x y Hx Hy. pose proof (H x Hx) as Ex. pose proof (H y Hy) as Ey. rewrite pair_diff in Ex, Ey. cbv zeta in Ex, Ey.
          fold e in Ex, Ey. fold (s x) in Ex. fold (s y) in Ey. fold (q x) in Ex. fold (q y) in Ey. fold ga in Ex, Ey. fold (u x) in Ex. fold (u y) in Ey.
          assert (Zx : forall z, q z = f0) by (intros z; unfold q; rewrite E0; ring).
          rewrite Zx, E0 in Ex, Ey. injection Ex as Ex1 _. injection Ey as Ey1 _. rewrite <- Ey1 in Ex1.
          apply (Dbl _ _ (fopp b)); [intros Z; apply Nb; transitivity (fopp (fopp b)); [ring|rewrite Z; ring]|].
          transitivity (fsub (fsub (fadd (fadd (fadd (fadd a a) b) (fadd (fadd f0 f0) f0)) (fadd (fmul (fadd (u x) (u x)) (fsub (fsub f0 b) f0)) (fmul (fsub (fsub f0 b) f0) (fsub (fsub f0 b) f0)))) (fadd (fadd a a) b)) (fmul b b)); [ring|].
          rewrite Ex1. ring. }
        apply (inj_le s L ND). intros x y Hx Hy Es.
        assert (E2 : snd x = snd y).
        { pose proof (U x y Hx Hy) as EU. unfold u in EU. rewrite Es in EU.
          transitivity (fsub (fadd (fsub (s y) (fmul (s y) (s y))) ga) (fadd (fsub (fsub (s y) (snd x)) (fmul (s y) (s y))) ga)); [ring|].
          rewrite EU. ring. }
        assert (E1 : fst x = fst y).
        { transitivity (fadd (s x) (snd x)); [unfold s; ring|]. rewrite Es, E2. unfold s. ring. }
        destruct x, y. cbn [fst snd] in *. congruence.
      + apply (inj_le snd L ND). intros x y Hx Hy E2.
        assert (Es : s x = s y).
        { apply (Dbl _ _ e N0). pose proof (Q x y Hx Hy) as EQ. unfold q in EQ.
          transitivity (fsub (fadd (fmul (fadd (s x) (s x)) e) (fmul e e)) (fmul e e)); [ring|]. rewrite EQ. ring. }
        assert (E1 : fst x = fst y).
        { transitivity (fadd (s x) (snd x)); [unfold s; ring|]. rewrite Es, E2. unfold s. ring. }
        destruct x, y. cbn [fst snd] in *. congruence.
    - (* the curve u = 0 for the difference (1, 1) *)
      set (ga := snd (np_abc P)).
      exists f1, f1, (fadd (fadd (fadd (f1 : F) f1) f1) f1, fadd (fadd (fadd (fadd (f1 : F) f1) f1) f1) f1).
      exists (map (fun s => (fadd s (fadd (fsub s (fmul s s)) ga), fadd (fsub s (fmul s s)) ga)) (@ProofZeroSum.all_elements F Fo p)).
      destruct (ProofZeroSum.all_enumerate HP) as [ND _]. pose proof (ProofZeroSum.enumerates_length HP _ (ProofZeroSum.all_enumerate HP)) as HL.
      split; [intros [E _]; exact (ff_one_neq_zero _ HF E)|]. split; [|split].
      + apply FinFun.Injective_map_NoDup; [|exact ND]. intros s s' E. injection E as E1 E2.
        transitivity (fsub (fadd s (fadd (fsub s (fmul s s)) ga)) (fadd (fsub s (fmul s s)) ga)); [ring|]. rewrite E1, E2. ring.
      + intros x Hx. apply in_map_iff in Hx. destruct Hx as [s [<- _]]. cbn [fst snd]. rewrite pair_diff. cbv zeta. fold ga.
        f_equal; ring.
      + rewrite map_length. exact HL.
  Qed.
End Sboxes.
